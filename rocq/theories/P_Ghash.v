(** Proofs about M_Ghash: GHASH is evaluation in GF(2^128). *)
From Verif Require Import BaseFacts Mono M_Ghash S_Gf2 S_Gcm P_Gf2.
From Coq Require Import ZifyBool ZifyNat.

Lemma testbit_low x y w n : 0 <= w -> 0 <= x < 2 ^ w -> 0 <= n < w -> Z.testbit (x + 2 ^ w * y) n = Z.testbit x n.
Proof.
  intros Hw Hx Hn. rewrite <- (Z.mod_pow2_bits_low (x + 2 ^ w * y) w n) by lia.
  rewrite (Z.mul_comm (2 ^ w)), Z.mod_add, Z.mod_small by lia. reflexivity.
Qed.
Lemma testbit_hi x y w n : 0 <= w -> 0 <= x < 2 ^ w -> w <= n -> Z.testbit (x + 2 ^ w * y) n = Z.testbit y (n - w).
Proof.
  intros Hw Hx Hn. replace n with ((n - w) + w) at 1 by lia. rewrite <- Z.div_pow2_bits by lia.
  rewrite (Z.mul_comm (2 ^ w)), Z.div_add, Z.div_small by lia. reflexivity.
Qed.

Lemma le_decode_testbit l n : bytes l -> 0 <= n ->
  Z.testbit (le_decode l) n = Z.testbit (nth (Z.to_nat (n / 8)) l 0) (n mod 8).
Proof.
  intros B. revert n. induction B as [|x l Hx B IH]; intros n Hn.
  - rewrite Z.testbit_0_l. destruct (Z.to_nat (n / 8)); now rewrite Z.testbit_0_l.
  - rewrite le_decode_cons. change 256 with (2 ^ 8). destruct (Z.lt_ge_cases n 8) as [H|H].
    + rewrite testbit_low by (unfold byte_ok in Hx; lia). rewrite Z.div_small, Z.mod_small by lia. reflexivity.
    + rewrite testbit_hi by (unfold byte_ok in Hx; lia). rewrite IH by lia.
      replace (Z.to_nat (n / 8)) with (S (Z.to_nat ((n - 8) / 8))).
      * cbn [nth]. f_equal. replace n with ((n - 8) + 1 * 8) at 2 by lia. now rewrite Z.mod_add by lia.
      * replace n with ((n - 8) + 1 * 8) at 2 by lia. rewrite Z.div_add by lia.
        assert (0 <= (n - 8) / 8) by (apply Z.div_pos; lia). lia.
Qed.

Lemma be_decode_testbit l i : bytes l -> length l = 16%nat -> (i < 128)%nat ->
  Z.testbit (be_decode l) (127 - Z.of_nat i) = block_bit l i.
Proof.
  intros B L Hi. unfold be_decode. rewrite le_decode_testbit by (try apply bytes_rev; try assumption; lia).
  pose proof (Nat.div_mod i 8 ltac:(lia)) as Hd. pose proof (Nat.mod_upper_bound i 8 ltac:(lia)) as Hm.
  assert (E1 : (127 - Z.of_nat i) / 8 = 15 - Z.of_nat (i / 8)).
  { symmetry. apply (Z.div_unique _ 8 _ (7 - Z.of_nat (i mod 8))); lia. }
  assert (E2 : (127 - Z.of_nat i) mod 8 = Z.of_nat (7 - i mod 8)).
  { symmetry. apply (Z.mod_unique _ 8 (15 - Z.of_nat (i / 8))); lia. }
  rewrite E1, E2. unfold block_bit. f_equal. rewrite rev_nth by lia. f_equal. lia.
Qed.

Lemma bits_sum (f : nat -> bool) n :
  let s := fold_right Z.add 0 (map (fun i => Z.b2z (f i) * 2 ^ Z.of_nat i) (seq 0 n)) in
  0 <= s < 2 ^ Z.of_nat n /\ forall i, (i < n)%nat -> Z.testbit s (Z.of_nat i) = f i.
Proof.
  cbv zeta. induction n as [|n [IH1 IH2]].
  - split; [cbn; lia|]. intros i Hi. lia.
  - rewrite seq_S, map_app, fold_right_app. cbn [map fold_right Nat.add].
    assert (E : forall l z, fold_right Z.add z l = fold_right Z.add 0 l + z).
    { induction l as [|x l IHl]; intros z; cbn [fold_right]; [lia|]. rewrite IHl. lia. }
    rewrite E. set (s := fold_right Z.add 0 _) in *. rewrite Z.add_0_r, Z.mul_comm.
    assert (P : 2 ^ Z.of_nat (S n) = 2 * 2 ^ Z.of_nat n) by (rewrite Nat2Z.inj_succ, Z.pow_succ_r; lia).
    split; [destruct (f n); cbn [Z.b2z]; lia|].
    intros i Hi. destruct (Nat.eq_dec i n) as [->|].
    + rewrite testbit_hi by lia. rewrite Z.sub_diag. apply Z.b2z_bit0.
    + rewrite testbit_low by lia. apply IH2. lia.
Qed.

Definition rel (s y : Z) : Prop :=
  0 <= s < 2 ^ 128 /\ 0 <= y < 2 ^ 128 /\ forall i, 0 <= i < 128 -> Z.testbit s (127 - i) = Z.testbit y i.

Lemma rel_block B : bytes B -> length B = 16%nat -> rel (be_decode B) (block_poly B).
Proof.
  intros HB HL. split; [|split].
  - pose proof (be_decode_range B HB) as R. unfold len in R. rewrite HL in R. exact R.
  - apply (bits_sum (block_bit B) 128).
  - intros i Hi. pose proof (be_decode_testbit B (Z.to_nat i) HB HL ltac:(lia)) as E1.
    pose proof (proj2 (bits_sum (block_bit B) 128) (Z.to_nat i) ltac:(lia)) as E2.
    rewrite Z2Nat.id in E1, E2 by lia. rewrite E1. symmetry. exact E2.
Qed.

Lemma rel_inj s s' y : rel s y -> rel s' y -> s = s'.
Proof.
  intros (R1 & _ & E1) (R2 & _ & E2). apply Z.bits_inj'. intros n Hn.
  destruct (Z.lt_ge_cases n 128) as [H|H].
  - replace n with (127 - (127 - n)) by lia. rewrite E1, E2 by lia. reflexivity.
  - rewrite (testbit_high s 128), (testbit_high s' 128) by lia. reflexivity.
Qed.
Lemma rel_inj_r s y y' : rel s y -> rel s y' -> y = y'.
Proof.
  intros (_ & R1 & E1) (_ & R2 & E2). apply Z.bits_inj'. intros n Hn.
  destruct (Z.lt_ge_cases n 128) as [H|H].
  - rewrite <- E1, <- E2 by lia. reflexivity.
  - rewrite (testbit_high y 128), (testbit_high y' 128) by lia. reflexivity.
Qed.

Definition poly_byte (p : Z) (k : nat) : Z :=
  fold_right Z.add 0 (map (fun j => Z.b2z (Z.testbit p (Z.of_nat (8 * k + j))) * 2 ^ Z.of_nat (7 - j)) (seq 0 8)).
Lemma poly_byte_ok p k : byte_ok (poly_byte p k) /\
  forall j, (j < 8)%nat -> Z.testbit (poly_byte p k) (Z.of_nat (7 - j)) = Z.testbit p (Z.of_nat (8 * k + j)).
Proof.
  set (f := fun m => Z.testbit p (Z.of_nat (8 * k + (7 - m)))).
  assert (E : poly_byte p k = fold_right Z.add 0 (map (fun i => Z.b2z (f i) * 2 ^ Z.of_nat i) (seq 0 8))).
  { unfold poly_byte, f. cbn [seq map fold_right Nat.sub]. lia. }
  rewrite E. destruct (bits_sum f 8) as [R T]. split; [exact R|].
  intros j Hj. rewrite T by lia. unfold f. do 2 f_equal. lia.
Qed.

Lemma poly_block_ok y : bytes (poly_block y) /\ length (poly_block y) = 16%nat.
Proof.
  split; [|reflexivity]. unfold poly_block. apply Forall_map. apply Forall_forall. intros k _. apply (poly_byte_ok y k).
Qed.
Lemma rel_poly_block y : 0 <= y < 2 ^ 128 -> rel (be_decode (poly_block y)) y.
Proof.
  intros Hy. destruct (poly_block_ok y) as [B L]. destruct (rel_block _ B L) as (R & _ & _).
  split; [exact R|]. split; [exact Hy|]. intros i Hi.
  pose proof (be_decode_testbit _ (Z.to_nat i) B L ltac:(lia)) as E. rewrite Z2Nat.id in E by lia. rewrite E.
  unfold block_bit. pose proof (Nat.div_mod (Z.to_nat i) 8 ltac:(lia)) as Hd. pose proof (Nat.mod_upper_bound (Z.to_nat i) 8 ltac:(lia)) as Hm.
  set (q := (Z.to_nat i / 8)%nat) in *. set (r := (Z.to_nat i mod 8)%nat) in *.
  assert (Hq : (q < 16)%nat) by lia.
  assert (En : nth q (poly_block y) 0 = poly_byte y q).
  { unfold poly_block. rewrite (nth_indep _ 0 (poly_byte y 0)) by (rewrite map_length, seq_length; lia).
    change (fun k => fold_right Z.add 0 _) with (poly_byte y). rewrite map_nth, seq_nth by lia. reflexivity. }
  rewrite En. rewrite (proj2 (poly_byte_ok y q)) by lia. f_equal. lia.
Qed.
Lemma rel_encode s y : rel s y -> be_encode 16 s = poly_block y.
Proof.
  intros H. destruct (poly_block_ok y) as [B L].
  assert (s = be_decode (poly_block y)) as -> by (eapply rel_inj; [exact H|apply rel_poly_block, H]).
  rewrite <- L at 1. now apply be_encode_decode.
Qed.

Lemma rel_lxor s y s' y' : rel s y -> rel s' y' -> rel (Z.lxor s s') (Z.lxor y y').
Proof.
  intros (R1 & R2 & E) (R1' & R2' & E'). split; [now apply lxor_range|]. split; [now apply lxor_range|].
  intros i Hi. rewrite !Z.lxor_spec, E, E' by assumption. reflexivity.
Qed.
Lemma rel_0 : rel 0 0.
Proof. split; [lia|]. split; [lia|]. intros. now rewrite !Z.testbit_0_l. Qed.

Lemma mask_top x : 0 <= x < 2 ^ 128 ->
  sign_mask128 (Z.land x (Z.shiftl 1 127)) = if Z.testbit x 127 then 2 ^ 128 - 1 else 0.
Proof.
  intros Hx. replace (Z.land x (Z.shiftl 1 127)) with (if Z.testbit x 127 then 2 ^ 127 else 0).
  - destruct (Z.testbit x 127); reflexivity.
  - apply Z.bits_inj'. intros n Hn. change (Z.shiftl 1 127) with (2 ^ 127). rewrite Z.land_spec, Z.pow2_bits_eqb by lia.
    destruct (Z.eqb_spec 127 n) as [<-|Hne].
    + rewrite andb_true_r. destruct (Z.testbit x 127); [rewrite Z.pow2_bits_true by lia; reflexivity|apply Z.testbit_0_l].
    + rewrite andb_false_r. destruct (Z.testbit x 127); [rewrite Z.pow2_bits_false by lia; reflexivity|apply Z.testbit_0_l].
Qed.
Lemma mask_low v : 0 <= v < 2 ^ 128 -> sign_mask128 (ushl 128 v 127) = if Z.testbit v 0 then 2 ^ 128 - 1 else 0.
Proof.
  intros Hv. unfold ushl. rewrite Z.shiftl_mul_pow2 by lia.
  replace (v * 2 ^ 127 mod 2 ^ 128) with (if Z.testbit v 0 then 2 ^ 127 else 0).
  - destruct (Z.testbit v 0); reflexivity.
  - change (2 ^ 128) with (2 * 2 ^ 127). rewrite Z.mul_mod_distr_r by lia.
    rewrite <- Z.bit0_mod. destruct (Z.testbit v 0); reflexivity.
Qed.
Lemma land_mask v (c : bool) : 0 <= v < 2 ^ 128 -> Z.land v (if c then 2 ^ 128 - 1 else 0) = if c then v else 0.
Proof.
  intros Hv. destruct c; [|apply Z.land_0_r]. change (2 ^ 128 - 1) with (Z.ones 128). rewrite Z.land_ones by lia. now apply Z.mod_small.
Qed.

Lemma R0_bits i : 0 <= i < 128 -> Z.testbit R0 (127 - i) = Z.testbit GCM_MODULUS i.
Proof.
  intros Hi. apply eqb_prop.
  assert (F : forallb (fun i => eqb (Z.testbit R0 (127 - Z.of_nat i)) (Z.testbit GCM_MODULUS (Z.of_nat i))) (seq 0 128) = true)
    by (vm_compute; reflexivity).
  rewrite forallb_forall in F. specialize (F (Z.to_nat i)). rewrite Z2Nat.id in F by lia. apply F. apply in_seq. lia.
Qed.

Lemma rel_mulx v V : rel v V ->
  rel (Z.lxor (Z.shiftr v 1) (Z.land R0 (sign_mask128 (ushl 128 v 127)))) (mulx 128 GCM_MODULUS V).
Proof.
  intros (R1 & R2 & E). rewrite mask_low by assumption. rewrite land_mask by (vm_compute; split; [discriminate|reflexivity]).
  split; [|split].
  - apply lxor_range; [lia| |destruct (Z.testbit v 0); [vm_compute; split; [discriminate|reflexivity]|lia]].
    rewrite Z.shiftr_div_pow2 by lia. split; [apply Z.div_pos; lia|]. apply Z.div_lt_upper_bound; lia.
  - apply mulx_range; [lia| |assumption]. vm_compute. split; [discriminate|reflexivity].
  - intros i Hi. rewrite Z.lxor_spec, Z.shiftr_spec by lia. unfold mulx.
    pose proof (E 127 ltac:(lia)) as E127. cbn [Z.sub] in E127. change (127 - 127) with 0 in E127. change (128 - 1) with 127.
    assert (Es : Z.testbit v (127 - i + 1) = Z.testbit V (i - 1)).
    { destruct (Z.eq_dec i 0) as [->|].
      - rewrite (testbit_high v 128) by lia. now rewrite Z.testbit_neg_r by lia.
      - rewrite <- E by lia. f_equal. lia. }
    rewrite Es, E127. destruct (Z.testbit V 127).
    + rewrite Z.lxor_spec, testbit_double, R0_bits by lia. reflexivity.
    + rewrite testbit_double, Z.testbit_0_l. apply xorb_false_r.
Qed.

Lemma gf_loop_ok n : forall state acc x v V, (n <= 128)%nat -> 0 <= x < 2 ^ 128 -> rel state acc -> rel v V ->
  rel (gf_loop n state x v)
      (Z.lxor acc (fold_right Z.lxor 0 (map (fun i => if Z.testbit x (127 - Z.of_nat i)
         then Nat.iter i (mulx 128 GCM_MODULUS) V else 0) (seq 0 n)))).
Proof.
  induction n as [|n IH]; intros state acc x v V Hn Hx Hs Hv.
  - cbn [gf_loop seq map fold_right]. now rewrite Z.lxor_0_r.
  - cbn [gf_loop]. cbn [seq map fold_right].
    rewrite <- Z.lxor_assoc. rewrite <- seq_shift, map_map.
    set (x' := ushl 128 x 1). assert (Hx' : 0 <= x' < 2 ^ 128) by (apply Z.mod_pos_bound; lia).
    specialize (IH (Z.lxor state (Z.land v (sign_mask128 (Z.land x (Z.shiftl 1 127)))))
       (Z.lxor acc (if Z.testbit x (127 - Z.of_nat 0) then Nat.iter 0 (mulx 128 GCM_MODULUS) V else 0)) x'
       (Z.lxor (Z.shiftr v 1) (Z.land R0 (sign_mask128 (ushl 128 v 127)))) (mulx 128 GCM_MODULUS V)
       ltac:(lia) Hx').
    erewrite map_ext_in; [apply IH|].
    + apply rel_lxor; [assumption|]. rewrite mask_top by assumption. rewrite land_mask by apply Hv.
      change (127 - Z.of_nat 0) with 127. destruct (Z.testbit x 127); [exact Hv|apply rel_0].
    + now apply rel_mulx.
    + intros i Hi. apply in_seq in Hi. cbv beta. rewrite iter_succ_r.
      assert (Z.testbit x (127 - Z.of_nat (S i)) = Z.testbit x' (127 - Z.of_nat i)) as ->; [|reflexivity].
      unfold x', ushl. rewrite Z.mod_pow2_bits_low by lia. rewrite Z.shiftl_spec by lia. f_equal. lia.
Qed.

Lemma gf_process_ok k K s y B : rel k K -> rel s y -> bytes B -> length B = 16%nat ->
  rel (gf_process k s B) (gf128_mul K (Z.lxor y (block_poly B))).
Proof.
  intros Hk Hs HB HL. unfold gf_process, gf128_mul. rewrite fmul_eq by apply Hk.
  pose proof (rel_lxor _ _ _ _ Hs (rel_block B HB HL)) as Hx.
  set (x := Z.lxor s (be_decode B)) in *. set (X := Z.lxor y (block_poly B)) in *.
  pose proof (gf_loop_ok 128 0 0 x k K ltac:(lia) ltac:(apply Hx) rel_0 Hk) as G.
  rewrite Z.lxor_0_l in G. erewrite map_ext_in; [exact G|].
  intros i Hi. apply in_seq in Hi. cbv beta. destruct Hx as (_ & _ & E). rewrite E by lia. reflexivity.
Qed.

(** Padding a short chunk. *)
Definition pad16 (c : list Z) : list Z := c ++ repeat 0 (16 - length c).
Lemma blocks_eq l : blocks l = map pad16 (chunks 16 l).
Proof.
  unfold blocks. induction l as [|l Hne IH] using (chunks_ind 16 ltac:(lia)); [reflexivity|].
  rewrite (chunks_cons 16 l) by (try assumption; lia). cbn [map]. rewrite <- IH.
  destruct (Nat.le_gt_cases 16 (length l)) as [H|H].
  - assert (L : length (firstn 16 l) = 16%nat) by (rewrite firstn_length; lia).
    unfold pad16 at 1. rewrite L, Nat.sub_diag. cbn [repeat]. rewrite app_nil_r.
    unfold zero_pad at 1. rewrite <- (firstn_skipn 16 l) at 1. rewrite <- app_assoc.
    rewrite (chunks_app 16 (firstn 16 l)) by (try exact L; lia). do 2 f_equal. unfold zero_pad. do 3 f_equal.
    rewrite skipn_length. replace (length l) with ((length l - 16) + 1 * 16)%nat at 1 by lia. now rewrite Nat.mod_add by lia.
  - assert (0 < length l)%nat by (destruct l; [congruence|cbn; lia]).
    rewrite (skipn_all2 l) by lia. rewrite (firstn_all2 l) by lia. change (chunks 16 (zero_pad [])) with (@nil (list Z)).
    unfold zero_pad, pad16. rewrite (Nat.mod_small (length l)), Nat.mod_small by lia.
    apply chunks_short; [destruct l; [congruence|discriminate]|]. rewrite app_length, repeat_length. lia.
Qed.

Lemma ghash_chunks_cons k s c cs : ghash_chunks k s (c :: cs) =
  let! s := (if (length c <? 16)%nat then let! buffer := write_slice (repeat 0 16) 0 c in Ok (gf_process k s buffer)
                 else Ok (gf_process k s c)) in ghash_chunks k s cs.
Proof. reflexivity. Qed.

Lemma ghash_chunks_ok k K : rel k K -> forall cs, Forall (fun c => (length c <= 16)%nat /\ bytes c) cs -> forall s y, rel s y ->
  exists s', ghash_chunks k s cs = Ok s' /\
    rel s' (fold_left (fun Y Xi => gf128_mul K (Z.lxor Y (block_poly Xi))) (map pad16 cs) y).
Proof.
  intros Hk cs F. induction F as [|c cs [L B] F IH]; intros s y Hs.
  - exists s. split; [reflexivity|assumption].
  - rewrite ghash_chunks_cons, map_cons, fold_left_cons'.
    assert (E : (if (length c <? 16)%nat then let! buffer := write_slice (repeat 0 16) 0 c in Ok (gf_process k s buffer)
                 else Ok (gf_process k s c)) = Ok (gf_process k s (pad16 c))).
    { unfold pad16. destruct (Nat.ltb_spec (length c) 16).
      - rewrite write_slice_ok by (rewrite repeat_length; lia). cbn [bind firstn app Nat.add]. now rewrite skipn_repeat.
      - replace (16 - length c)%nat with 0%nat by lia. cbn [repeat]. now rewrite app_nil_r. }
    rewrite E. cbn [bind]. apply IH. apply gf_process_ok; [assumption..| |].
    + unfold pad16. apply bytes_app. split; [assumption|]. apply bytes_repeat. unfold byte_ok; lia.
    + unfold pad16. rewrite app_length, repeat_length. lia.
Qed.

Lemma chunks16_ok l : bytes l -> Forall (fun c => (length c <= 16)%nat /\ bytes c) (chunks 16 l).
Proof.
  intros B. pose proof (chunks_length_le 16 l ltac:(lia)) as F1. pose proof (chunks_bytes 16 l ltac:(lia) B) as F2.
  rewrite Forall_forall in *. intros x Hx. split; [apply F1 in Hx; lia|now apply F2].
Qed.

Lemma ghash_ok b H A C : length H = 16%nat -> bytes H -> bytes A -> bytes C -> len A < 2 ^ 61 -> len C < 2 ^ 61 ->
  ghash b H A C = Ok (GHASH H (ghash_input A C)).
Proof.
  intros LH BH BA BC HA HC. unfold ghash, GHASH, ghash_input.
  pose proof (len_nonneg A). pose proof (len_nonneg C).
  rewrite !blocks_eq, !fold_left_app, fold_left_cons', fold_left_nil'.
  pose proof (rel_block H BH LH) as Hk.
  destruct (ghash_chunks_ok _ _ Hk _ (chunks16_ok A BA) 0 0 rel_0) as (s1 & E1 & R1). rewrite E1. cbn [bind].
  rewrite !(Z.mod_small (len _)) by lia. rewrite uchk_ok by lia. cbn [bind].
  destruct (ghash_chunks_ok _ _ Hk _ (chunks16_ok C BC) s1 _ R1) as (s2 & E2 & R2). rewrite E2. cbn [bind].
  rewrite Z.add_0_l. rewrite !uchk_ok by lia. cbn [bind]. f_equal.
  apply rel_encode. apply gf_process_ok; [assumption..| |].
  - apply bytes_app. split; apply be_encode_bytes.
  - rewrite app_length, !be_encode_length. reflexivity.
Qed.
