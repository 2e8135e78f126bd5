(** Proofs about the SHA-2 model (M_Sha2) against FIPS 180-4 (S_Sha2). *)
From Verif Require Import BaseFacts M_Sha2 S_Sha2.
From Coq Require Import ZifyBool ZifyNat.

(** ** Word operations *)
Lemma rotr_spec wd x n : 0 < n < wd -> 0 <= x < 2 ^ wd ->
  rotr wd x n = x / 2 ^ n + (x mod 2 ^ n) * 2 ^ (wd - n).
Proof.
  intros Hn Hx. unfold rotr, ushl. rewrite Z.shiftr_div_pow2, Z.shiftl_mul_pow2 by lia.
  replace (2 ^ wd) with (2 ^ n * 2 ^ (wd - n)) by (rewrite <- Z.pow_add_r by lia; f_equal; lia).
  assert (Hp : 0 < 2 ^ (wd - n)) by (apply Z.pow_pos_nonneg; lia).
  assert (Hq : 0 < 2 ^ n) by (apply Z.pow_pos_nonneg; lia).
  rewrite Z.mul_mod_distr_r by lia.
  set (lo := x mod 2 ^ n). set (hi := x / 2 ^ n).
  assert (Hhi : 0 <= hi < 2 ^ (wd - n)).
  { unfold hi. split; [apply Z.div_pos; lia|]. apply Z.div_lt_upper_bound; [lia|].
    rewrite <- Z.pow_add_r by lia. replace (n + (wd - n)) with wd by lia. lia. }
  symmetry.
  rewrite <- Z.lxor_lor.
  - apply Z.add_nocarry_lxor.
    apply Z.bits_inj'. intros i Hi. rewrite Z.land_spec, Z.bits_0.
    rewrite Z.mul_pow2_bits by lia.
    destruct (Z.lt_ge_cases i (wd - n)).
    + rewrite (Z.testbit_neg_r lo) by lia. apply andb_false_r.
    + rewrite (testbit_high hi (wd - n)) by lia. reflexivity.
  - apply Z.bits_inj'. intros i Hi. rewrite Z.land_spec, Z.bits_0.
    rewrite Z.mul_pow2_bits by lia.
    destruct (Z.lt_ge_cases i (wd - n)).
    + rewrite (Z.testbit_neg_r lo) by lia. apply andb_false_r.
    + rewrite (testbit_high hi (wd - n)) by lia. reflexivity.
Qed.

Lemma rotr_range wd x n : 0 < n < wd -> 0 <= x < 2 ^ wd -> 0 <= rotr wd x n < 2 ^ wd.
Proof.
  intros Hn Hx. unfold rotr. apply lor_range; [lia| |].
  - rewrite Z.shiftr_div_pow2 by lia. split; [apply Z.div_pos; lia|].
    apply Z.le_lt_trans with x; [|lia]. apply Z.div_le_upper_bound; [lia|].
    assert (1 <= 2 ^ n) by (assert (0 < 2 ^ n) by lia; lia). nia.
  - unfold ushl. apply Z.mod_pos_bound. lia.
Qed.

Lemma unot_land wd x z : 0 <= wd -> 0 <= x < 2 ^ wd -> 0 <= z < 2 ^ wd ->
  Z.land (unot wd x) z = Z.land (Z.lnot x) z.
Proof.
  intros Hw Hx Hz. unfold unot.
  replace (2 ^ wd - 1 - x) with (Z.lnot x mod 2 ^ wd).
  2:{ unfold Z.lnot. replace (Z.pred (- x)) with ((2 ^ wd - 1 - x) + (-1) * 2 ^ wd) by lia.
      rewrite Z.mod_add by lia. apply Z.mod_small. lia. }
  rewrite <- Z.land_ones by assumption. rewrite <- Z.land_assoc. f_equal.
  rewrite Z.land_comm, Z.land_ones by assumption. apply Z.mod_small; lia.
Qed.

Lemma wadd_range wd x y : 0 <= wd -> 0 <= wadd wd x y < 2 ^ wd.
Proof. intros. unfold wadd. apply Z.mod_pos_bound. lia. Qed.

(** ** When the macro parameters describe a FIPS variant *)
Definition rot_ok (wd : Z) (c : Z * Z * Z) : bool :=
  let '(i, j, k) := c in (0 <? i) && (i <? wd) && (0 <? j) && (j <? wd) && (0 <? k) && (k <? wd).

Record matches (P : sha_params) (A : algorithm) (V : variant) : Prop := {
  m_w : w_bits P = wbits V;
  m_wb : w_bytes P = wbytes V;
  m_w8 : wbits V = 8 * Z.of_nat (wbytes V);
  m_wpos : (4 <= wbytes V <= 8)%nat;
  m_block : p_block P = block_bytes V;
  m_bs : block_size A = block_bytes V;
  m_K : p_K P = Kt V;
  m_rounds : p_rounds P = rounds V;
  m_Klen : length (Kt V) = rounds V;
  m_16 : (16 <= rounds V)%nat;
  m_b0 : b0 P = Sigma0 V; m_b1 : b1 P = Sigma1 V;
  m_s0 : s0 P = sigma0 V; m_s1 : s1 P = sigma1 V;
  m_rot : rot_ok (wbits V) (Sigma0 V) && rot_ok (wbits V) (Sigma1 V)
          && rot_ok (wbits V) (sigma0 V) && rot_ok (wbits V) (sigma1 V) = true;
  m_iv : initial_state A = IV V;
  m_ivlen : length (IV V) = 8%nat;
  m_ivok : forallb (fun x => (0 <=? x) && (x <? 2 ^ wbits V)) (IV V) = true;
  m_ds : digest_size A = digest_bytes V;
  m_dsn : digest_bytes V = (digest_bytes V / wbytes V * wbytes V)%nat;
  m_ds8 : (0 < digest_bytes V <= 8 * wbytes V)%nat;
  m_dsle : (digest_bytes V <= 64)%nat }.

Ltac prove_matches :=
  constructor; vm_compute; try reflexivity; repeat constructor.
Lemma matches_sha512 : matches P512 SHA512 spec_sha512.
Proof. prove_matches. Qed.
Lemma matches_sha384 : matches P512 SHA384 spec_sha384.
Proof. prove_matches. Qed.
Lemma matches_sha256 : matches P256 SHA256 spec_sha256.
Proof. prove_matches. Qed.
Lemma matches_sha224 : matches P256 SHA224 spec_sha224.
Proof. prove_matches. Qed.

Section Compress.
Variables (P : sha_params) (A : algorithm) (V : variant).
Hypothesis M : matches P A V.
Let wd := wbits V.
Let ok (x : Z) := 0 <= x < 2 ^ wd.

Lemma wd_pos : 0 < wd.
Proof. unfold wd. destruct M. lia. Qed.

Lemma rot_oks : rot_ok wd (Sigma0 V) = true /\ rot_ok wd (Sigma1 V) = true
  /\ rot_ok wd (sigma0 V) = true /\ rot_ok wd (sigma1 V) = true.
Proof. pose proof (m_rot _ _ _ M) as H. fold wd in H. rewrite !andb_true_iff in H. tauto. Qed.

Lemma rot3_eq c x : rot_ok wd c = true -> ok x ->
  (let '(i, j, k) := c in Z.lxor (Z.lxor (rotr wd x i) (rotr wd x j)) (rotr wd x k)) = rot3 V c x.
Proof.
  destruct c as [[i j] k]. unfold rot_ok, rot3, ROTR. intros H Hx. fold wd.
  rewrite !rotr_spec; try reflexivity; try exact Hx; lia.
Qed.
Lemma rot2_eq c x : rot_ok wd c = true -> ok x ->
  (let '(i, j, k) := c in Z.lxor (Z.lxor (rotr wd x i) (rotr wd x j)) (Z.shiftr x k)) = rot2shr V c x.
Proof.
  destruct c as [[i j] k]. unfold rot_ok, rot2shr, ROTR, SHR. intros H Hx. fold wd.
  rewrite !rotr_spec by (try exact Hx; lia). rewrite Z.shiftr_div_pow2 by lia. reflexivity.
Qed.
Lemma rot3_ok c x : rot_ok wd c = true -> ok x -> ok (rot3 V c x).
Proof.
  intros H Hx. rewrite <- rot3_eq by assumption. destruct c as [[i j] k]. unfold rot_ok in H.
  pose proof wd_pos.
  apply lxor_range; [lia| |apply rotr_range; [lia|exact Hx]].
  apply lxor_range; [lia| |]; (apply rotr_range; [lia|exact Hx]).
Qed.

Lemma bsig0_eq x : ok x -> bsig0 P x = rot3 V (Sigma0 V) x.
Proof.
  intros Hx. unfold bsig0. rewrite (m_b0 _ _ _ M), (m_w _ _ _ M).
  apply rot3_eq; [apply rot_oks | exact Hx].
Qed.
Lemma bsig1_eq x : ok x -> bsig1 P x = rot3 V (Sigma1 V) x.
Proof.
  intros Hx. unfold bsig1. rewrite (m_b1 _ _ _ M), (m_w _ _ _ M).
  apply rot3_eq; [apply rot_oks | exact Hx].
Qed.
Lemma ssig0_eq x : ok x -> ssig0 P x = rot2shr V (sigma0 V) x.
Proof.
  intros Hx. unfold ssig0. rewrite (m_s0 _ _ _ M), (m_w _ _ _ M).
  apply rot2_eq; [apply rot_oks | exact Hx].
Qed.
Lemma ssig1_eq x : ok x -> ssig1 P x = rot2shr V (sigma1 V) x.
Proof.
  intros Hx. unfold ssig1. rewrite (m_s1 _ _ _ M), (m_w _ _ _ M).
  apply rot2_eq; [apply rot_oks | exact Hx].
Qed.
Lemma ch_eq x y z : ok x -> ok z -> ch P x y z = Ch x y z.
Proof.
  intros Hx Hz. unfold ch, Ch. rewrite (m_w _ _ _ M). f_equal. apply unot_land; auto.
  pose proof wd_pos. unfold wd in *. lia.
Qed.
Lemma maj_eq x y z : maj x y z = Maj x y z.
Proof. reflexivity. Qed.

Lemma wplus_ok x y : ok (wplus V x y).
Proof. unfold wplus, ok. apply Z.mod_pos_bound. pose proof wd_pos. apply Z.pow_pos_nonneg; lia. Qed.
Lemma wadd_eq x y : wadd (w_bits P) x y = wplus V x y.
Proof. unfold wadd, wplus. now rewrite (m_w _ _ _ M). Qed.
Lemma wplus_assoc x y z : wplus V x (wplus V y z) = wplus V (wplus V x y) z.
Proof.
  unfold wplus. fold wd. pose proof wd_pos.
  rewrite Zplus_mod_idemp_r, Zplus_mod_idemp_l. f_equal; lia.
Qed.
Lemma wplus_comm x y : wplus V x y = wplus V y x.
Proof. unfold wplus. f_equal; lia. Qed.

(** *** Message schedule *)
Lemma Wrev_length t blk : length (Wrev V t blk) = t.
Proof. induction t as [|t IH]; cbn [Wrev length]; auto. Qed.
Lemma nth_ok l i : Forall ok l -> ok (nth i l 0).
Proof.
  intros H. destruct (Nat.lt_ge_cases i (length l)).
  - rewrite Forall_forall in H. apply H, nth_In; assumption.
  - rewrite nth_overflow by assumption. unfold ok. split; [lia|].
    pose proof wd_pos. apply Z.pow_pos_nonneg; lia.
Qed.
Lemma Wrev_ok t blk : Forall ok blk -> Forall ok (Wrev V t blk).
Proof.
  intros H. induction t as [|t IH]; cbn [Wrev]; constructor; auto.
  destruct (Nat.ltb_spec t 16); [apply nth_ok; assumption | apply wplus_ok].
Qed.
Lemma Wrev_small t blk : (t <= 16)%nat -> length blk = 16%nat -> rev (Wrev V t blk) = firstn t blk.
Proof.
  intros Ht Hl. induction t as [|t IH]; [reflexivity|].
  cbn [Wrev rev]. rewrite IH by lia.
  destruct (Nat.ltb_spec t 16); [|lia].
  assert (Hlt : (t < length blk)%nat) by lia.
  clear - Hlt. revert blk Hlt. induction t as [|t IH]; intros [|x blk] Hlt; cbn in *; try lia; auto.
  rewrite <- (IH blk) by lia. reflexivity.
Qed.

Lemma schedule_eq n : forall t blk, (16 <= t)%nat -> Forall ok blk ->
  schedule P n t (rev (Wrev V t blk)) = rev (Wrev V (t + n) blk).
Proof.
  induction n as [|n IH]; intros t blk Ht Hb; cbn [schedule].
  - now rewrite Nat.add_0_r.
  - assert (Hg : forall k, (0 < k <= t)%nat -> get (rev (Wrev V t blk)) (t - k) = nth (k - 1) (Wrev V t blk) 0).
    { intros k Hk. unfold get. rewrite rev_nth; rewrite Wrev_length; [|lia]. f_equal. lia. }
    rewrite !Hg by lia. cbn [Nat.sub].
    replace (t + S n)%nat with (S t + n)%nat by lia.
    rewrite <- IH by (auto; lia). f_equal. cbn [Wrev rev].
    destruct (Nat.ltb_spec t 16); [lia|]. f_equal. f_equal.
    pose proof (Wrev_ok t blk Hb) as Hw.
    rewrite ssig1_eq, ssig0_eq by (apply nth_ok; assumption).
    rewrite !wadd_eq. rewrite wplus_assoc. reflexivity.
Qed.

(** *** Rounds *)
Definition tup (l : list Z) : Z * Z * Z * Z * Z * Z * Z * Z :=
  (get l 0, get l 1, get l 2, get l 3, get l 4, get l 5, get l 6, get l 7).

Lemma round_eq l k wt : length l = 8%nat -> Forall ok l ->
  round P (tup l) (k, wt) = tup (sha_step V (k, wt) l) /\
  length (sha_step V (k, wt) l) = 8%nat /\ Forall ok (sha_step V (k, wt) l).
Proof.
  intros Hl Hok.
  do 8 (destruct l as [|? l]; [discriminate|]). destruct l; [|discriminate].
  repeat match goal with H : Forall _ (_ :: _) |- _ => inversion_clear H end.
  unfold tup, round, sha_step, get; cbn [nth fst snd length]. repeat split.
  - rewrite bsig1_eq, ch_eq, bsig0_eq by assumption. rewrite !wadd_eq. reflexivity.
  - repeat (apply Forall_cons; [first [assumption | apply wplus_ok]|]); apply Forall_nil.
Qed.

Lemma fold_combine_seq {S} (f : S -> Z * Z -> S) (ks ws : list Z) (s : S) : length ks = length ws ->
  fold_left f (combine ks ws) s =
  fold_left (fun s t => f s (nth t ks 0, nth t ws 0)) (seq 0 (length ks)) s.
Proof.
  revert ws s. induction ks as [|k ks IH]; intros [|x ws] s H; cbn [length] in H; try lia; [reflexivity|].
  cbn [combine fold_left length seq]. rewrite IH by lia.

  cbn [nth]. rewrite <- (seq_shift (length ks) 0).
  generalize (f s (k, x)) as s'. generalize (seq 0 (length ks)) as q.
  induction q as [|t q IHq]; intros s'; cbn [map fold_left]; auto.
Qed.

Lemma rounds_eq (ks ws : list Z) q l : length l = 8%nat -> Forall ok l ->
  let r := fold_left (fun v t => sha_step V (nth t ks 0, nth t ws 0) v) q l in
  fold_left (fun s t => round P s (nth t ks 0, nth t ws 0)) q (tup l) = tup r
  /\ length r = 8%nat /\ Forall ok r.
Proof.
  revert l; induction q as [|t q IH]; intros l Hl Hok; cbn [fold_left].
  - auto.
  - destruct (round_eq l (nth t ks 0) (nth t ws 0) Hl Hok) as (-> & H2 & H3).
    apply IH; assumption.
Qed.

Definition good_state (s : list Z) := length s = 8%nat /\ Forall ok s.

Lemma words_ok blk : bytes blk -> Forall ok (map be_decode (chunks (wbytes V) blk)).
Proof.
  intros Hb. apply Forall_forall. intros x Hx. apply in_map_iff in Hx as (c & <- & Hc).
  pose proof (m_wpos _ _ _ M).
  pose proof (chunks_bytes (wbytes V) blk ltac:(lia) Hb) as H1.
  pose proof (chunks_length_le (wbytes V) blk ltac:(lia)) as H2.
  rewrite Forall_forall in H1, H2. specialize (H1 c Hc). specialize (H2 c Hc).
  pose proof (be_decode_range c H1). unfold ok, wd. rewrite (m_w8 _ _ _ M).
  split; [lia|]. eapply Z.lt_le_trans; [apply H0|].
  change 256 with (2 ^ 8). rewrite <- Z.pow_mul_r by (unfold len; lia).
  apply Z.pow_le_mono_r; [lia|]. unfold len. lia.
Qed.

Lemma process_eq s blk : good_state s -> bytes blk -> length blk = block_bytes V ->
  process P s blk = compress V s blk /\ good_state (compress V s blk).
Proof.
  intros [Hl Hs] Hb Hlen. unfold process, compress.
  rewrite (m_wb _ _ _ M), (m_rounds _ _ _ M), (m_K _ _ _ M).
  set (m := map be_decode (chunks (wbytes V) blk)).
  pose proof (m_wpos _ _ _ M) as Hw.
  assert (Hm : Forall ok m) by (apply words_ok; assumption).
  assert (Hml : length m = 16%nat).
  { unfold m. rewrite map_length.
    apply (chunks_full (wbytes V) 16 blk); [lia|]. rewrite Hlen. reflexivity. }
  rewrite <- (firstn_all m) at 1. rewrite Hml.
  rewrite <- (Wrev_small 16 m) by (auto; lia).
  rewrite schedule_eq by (auto; lia).
  pose proof (m_16 _ _ _ M) as H16. replace (16 + (rounds V - 16))%nat with (rounds V) by lia.
  change (rev (Wrev V (rounds V) m)) with (W V m).
  assert (HWl : length (W V m) = rounds V) by (unfold W; rewrite rev_length; apply Wrev_length).
  rewrite fold_combine_seq by (rewrite HWl; apply (m_Klen _ _ _ M)).
  rewrite (m_Klen _ _ _ M).
  change (get s 0, get s 1, get s 2, get s 3, get s 4, get s 5, get s 6, get s 7) with (tup s).
  destruct (rounds_eq (Kt V) (W V m) (seq 0 (rounds V)) s Hl Hs) as (H1 & H2 & H3).
  set (r := fold_left (fun v t => sha_step V (nth t (Kt V) 0, nth t (W V m) 0) v) (seq 0 (rounds V)) s) in *.
  rewrite H1. unfold tup.
  do 8 (destruct r as [|? r]; [discriminate|]). destruct r; [|discriminate].
  do 8 (destruct s as [|? s]; [discriminate|]). destruct s; [|discriminate].
  unfold get; cbn [nth zipwith]. rewrite !wadd_eq. split.
  - repeat (apply f_equal2; [apply wplus_comm|]). reflexivity.
  - split; [reflexivity|]. repeat (apply Forall_cons; [apply wplus_ok|]); apply Forall_nil.
Qed.

End Compress.
