(** Proofs about chacha20.rs. *)
From Verif Require Import BaseFacts M_ChaCha20 S_ChaCha P_Sha2.
From Coq Require Import ZifyBool ZifyNat.

Definition w32 (x : Z) := 0 <= x < 2 ^ 32.

Lemma rotl_spec x n : 0 < n < 32 -> w32 x -> rotl 32 x n = rotl32 x n /\ w32 (rotl32 x n).
Proof.
  intros Hn Hx.
  assert (E : rotl 32 x n = rotr 32 x (32 - n)).
  { unfold rotl, rotr. rewrite Z.lor_comm. do 2 f_equal. lia. }
  assert (E2 : rotl 32 x n = rotl32 x n).
  { rewrite E, rotr_spec by (try exact Hx; lia). unfold rotl32. rewrite Z.add_comm. f_equal.
    replace (32 - (32 - n)) with n by lia.
    replace (2 ^ 32) with (2 ^ (32 - n) * 2 ^ n) by (rewrite <- Z.pow_add_r by lia; f_equal; lia).
    rewrite Z.mul_mod_distr_r; [reflexivity| |]; apply Z.pow_nonzero; lia. }
  split; [exact E2|]. rewrite <- E2, E. apply rotr_range; [lia|exact Hx].
Qed.

Lemma w32_wadd x y : w32 (wadd 32 x y).
Proof. apply wadd_range. lia. Qed.
Lemma w32_lxor x y : w32 x -> w32 y -> w32 (Z.lxor x y).
Proof. apply lxor_range. lia. Qed.

(** List state [l] represents function state [s]. *)
Definition rep (l : list Z) (s : cstate) : Prop :=
  length l = 16%nat /\ forall i, (i < 16)%nat -> get l i = s i /\ w32 (s i).

Lemma rep_upd l s i x : rep l s -> (i < 16)%nat -> w32 x -> rep (upd l i x) (set s i x).
Proof.
  intros [Hl H] Hi Hx. split; [now rewrite upd_length|]. intros j Hj.
  rewrite get_upd by lia. unfold set. rewrite Nat.eqb_sym.
  destruct (Nat.eqb_spec j i); [auto|apply H; assumption].
Qed.

Lemma quarter_rep l s i j k m : rep l s -> (i < 16)%nat -> (j < 16)%nat -> (k < 16)%nat -> (m < 16)%nat ->
  rep (quarter_round l i j k m) (QUARTERROUND i j k m s).
Proof.
  intros Hr Hi Hj Hk Hm. pose proof Hr as [Hl H].
  destruct (H i Hi) as [Ei Wi], (H j Hj) as [Ej Wj], (H k Hk) as [Ek Wk], (H m Hm) as [Em Wm].
  unfold quarter_round, QUARTERROUND, QR. rewrite Ei, Ej, Ek, Em.
  set (a := s i) in *. set (b := s j) in *. set (c := s k) in *. set (d := s m) in *. clearbody a b c d.
  change add32 with (wadd 32).
  set (a1 := wadd 32 a b). assert (Wa1 : w32 a1) by apply w32_wadd.
  destruct (rotl_spec (Z.lxor d a1) 16) as [-> Wd1]; [lia|apply w32_lxor; assumption|].
  set (d1 := rotl32 (Z.lxor d a1) 16) in *.
  set (c1 := wadd 32 c d1). assert (Wc1 : w32 c1) by apply w32_wadd.
  destruct (rotl_spec (Z.lxor b c1) 12) as [-> Wb1]; [lia|apply w32_lxor; assumption|].
  set (b1 := rotl32 (Z.lxor b c1) 12) in *.
  set (a2 := wadd 32 a1 b1). assert (Wa2 : w32 a2) by apply w32_wadd.
  destruct (rotl_spec (Z.lxor d1 a2) 8) as [-> Wd2]; [lia|apply w32_lxor; assumption|].
  set (d2 := rotl32 (Z.lxor d1 a2) 8) in *.
  set (c2 := wadd 32 c1 d2). assert (Wc2 : w32 c2) by apply w32_wadd.
  destruct (rotl_spec (Z.lxor b1 c2) 7) as [-> Wb2]; [lia|apply w32_lxor; assumption|].
  repeat (apply rep_upd; [|assumption|assumption]). exact Hr.
Qed.

Lemma inner_rep l s : rep l s -> rep (inner_block l) (double_round s).
Proof.
  intros H. unfold inner_block, double_round, diagonal_rounds, column_rounds.
  repeat (apply quarter_rep; [|lia|lia|lia|lia]). exact H.
Qed.

Lemma iter_rep n l s : rep l s -> rep (Nat.iter n inner_block l) (Nat.iter n double_round s).
Proof. intros H. induction n as [|n IH]; [exact H|]. cbn [Nat.iter nat_rect]. apply inner_rep, IH. Qed.

(** The array built by [ChaCha20::new]. *)
Definition chacha_words (key nonce : list Z) : list Z :=
  [0x61707865; 0x3320646e; 0x79622d32; 0x6b206574]
      ++ map le_decode (chunks 4 key) ++ [0] ++ map le_decode (chunks 4 nonce).

Lemma chacha_new_eq key nonce :
  chacha_new key nonce = if (length key =? 32)%nat && (length nonce =? 12)%nat then Ok (chacha_words key nonce) else Panic.
Proof.
  unfold chacha_new. rewrite (Nat.eqb_sym 32), (Nat.eqb_sym 12).
  destruct (length key =? 32)%nat; cbn [assertb bind andb]; [|reflexivity].
  destruct (length nonce =? 12)%nat; reflexivity.
Qed.

Lemma nth_chunks n : (0 < n)%nat -> forall (l : list Z) i, nth i (chunks n l) [] = firstn n (skipn (n * i) l).
Proof.
  intros Hn l. induction l as [|l Hne IH] using (chunks_ind n Hn); intros i.
  - rewrite chunks_nil. destruct i; rewrite skipn_nil, firstn_nil; reflexivity.
  - rewrite chunks_cons by assumption. destruct i as [|i].
    + rewrite Nat.mul_0_r. reflexivity.
    + cbn [nth]. rewrite IH. rewrite skipn_skipn'. do 2 f_equal. lia.
Qed.

Lemma le32_nth l i : nth i (map le_decode (chunks 4 l)) 0 = le32_at l i.
Proof.
  change 0 with (le_decode []). rewrite map_nth, nth_chunks by lia. reflexivity.
Qed.

Lemma le32_range l i : bytes l -> w32 (le32_at l i).
Proof.
  intros Hb. unfold le32_at, w32. pose proof (le_decode_range (firstn 4 (skipn (4 * i) l)) ltac:(apply bytes_firstn, bytes_skipn, Hb)).
  split; [lia|]. eapply Z.lt_le_trans; [apply H|]. change (2 ^ 32) with (256 ^ 4).
  apply Z.pow_le_mono_r; [lia|]. unfold len. rewrite firstn_length. lia.
Qed.

Section Block.
Variables key nonce : list Z.
Hypothesis Hk : length key = 32%nat.
Hypothesis Hn : length nonce = 12%nat.
Hypothesis Bk : bytes key.
Hypothesis Bn : bytes nonce.

Lemma words_rep : rep (chacha_words key nonce) (init_state key 0 nonce).
Proof.
  assert (L1 : length (map le_decode (chunks 4 key)) = 8%nat).
  { rewrite map_length. apply (chunks_full 4 8 key); [lia|assumption]. }
  assert (L2 : length (map le_decode (chunks 4 nonce)) = 3%nat).
  { rewrite map_length. apply (chunks_full 4 3 nonce); [lia|assumption]. }
  split.
  - unfold chacha_words. rewrite !app_length, L1, L2. reflexivity.
  - intros i Hi. unfold chacha_words, get.
    assert (Hcase : (i < 4 \/ (4 <= i < 12) \/ i = 12 \/ (13 <= i < 16))%nat) by lia.
    destruct Hcase as [H|[H|[->|H]]].
    + rewrite app_nth1 by (cbn [length]; lia).
      do 4 (destruct i as [|i]; [split; [reflexivity|unfold w32; cbn; lia]|]). lia.
    + rewrite app_nth2 by (cbn [length]; lia). rewrite app_nth1 by (rewrite L1; cbn [length]; lia).
      cbn [length]. rewrite le32_nth.
      assert (E : init_state key 0 nonce i = le32_at key (i - 4)).
      { unfold init_state. do 12 (destruct i as [|i]; [first [lia|reflexivity]|]). lia. }
      rewrite E. split; [reflexivity|]. apply le32_range, Bk.
    + rewrite app_nth2 by (cbn [length]; lia). rewrite app_nth2 by (rewrite L1; cbn [length]; lia).
      rewrite L1. cbn [length Nat.sub]. rewrite app_nth1 by (cbn; lia). split; [reflexivity|]. cbn. unfold w32; lia.
    + rewrite app_nth2 by (cbn [length]; lia). rewrite app_nth2 by (rewrite L1; cbn [length]; lia).
      rewrite L1. cbn [length]. rewrite app_nth2 by (cbn [length]; lia). cbn [length].
      replace (i - 4 - 8 - 1)%nat with (i - 13)%nat by lia. rewrite le32_nth.
      assert (E : init_state key 0 nonce i = le32_at nonce (i - 13)).
      { unfold init_state. do 16 (destruct i as [|i]; [first [lia|reflexivity]|]). lia. }
      rewrite E. split; [reflexivity|]. apply le32_range, Bn.
Qed.

Lemma init_set c i : (i < 16)%nat -> set (init_state key 0 nonce) 12 c i = init_state key c nonce i.
Proof.
  intros Hi. do 16 (destruct i as [|i]; [reflexivity|]). lia.
Qed.

Lemma rep_ext l s s' : rep l s -> (forall i, (i < 16)%nat -> s i = s' i) -> rep l s'.
Proof. intros [Hl H] He. split; [assumption|]. intros i Hi. rewrite <- He by assumption. apply H; assumption. Qed.

Lemma zipwith_nth l m i : (i < length l)%nat -> (i < length m)%nat ->
  get (zipwith (wadd 32) l m) i = wadd 32 (get l i) (get m i).
Proof.
  unfold get. revert m i; induction l as [|x l IH]; intros [|y m] [|i]; cbn [length zipwith nth]; intros; try lia; auto.
  apply IH; lia.
Qed.

Lemma transform_eq c i : w32 c -> (i < 16)%nat ->
  get (transform_state (chacha_words key nonce) c) i =
  add32 (Nat.iter 10 double_round (init_state key c nonce) i) (init_state key c nonce i).
Proof.
  intros Hc Hi. unfold transform_state.
  pose proof words_rep as [WL WR].
  assert (R0 : rep (upd (chacha_words key nonce) 12 c) (init_state key c nonce)).
  { eapply rep_ext; [apply rep_upd; [apply words_rep|lia|exact Hc]|]. intros; apply init_set; assumption. }
  pose proof (iter_rep 10 _ _ R0) as [IL IR].
  set (it := Nat.iter 10 inner_block (upd (chacha_words key nonce) 12 c)) in *.
  assert (ZL : length (zipwith (wadd 32) it (chacha_words key nonce)) = 16%nat).
  { rewrite zipwith_length, IL, WL. reflexivity. }
  rewrite get_upd by lia. rewrite !zipwith_nth by lia.
  destruct (IR i Hi) as [E1 _]. destruct (WR i Hi) as [E2 _]. rewrite E1, E2.
  unfold add32, wadd.
  destruct (Nat.eqb_spec 12 i) as [<-|Hne].
  - destruct (IR 12%nat ltac:(lia)) as [E3 _]. destruct (WR 12%nat ltac:(lia)) as [E4 _]. rewrite E3, E4.
    rewrite Zplus_mod_idemp_l. f_equal. rewrite <- Z.add_assoc. f_equal.
  - do 2 f_equal. rewrite <- (init_set c i Hi). unfold set.
    destruct (Nat.eqb_spec i 12); [lia|reflexivity].
Qed.

Lemma flat_map_ext_in {A B} (f g : A -> list B) l : (forall x, In x l -> f x = g x) -> flat_map f l = flat_map g l.
Proof. intros H. induction l as [|x l IH]; cbn; [reflexivity|]. rewrite H, IH; auto with datatypes. Qed.

Lemma list_seq (l : list Z) : l = map (get l) (seq 0 (length l)).
Proof.
  unfold get. induction l as [|x l IH]; [reflexivity|]. cbn [length seq map nth]. f_equal.
  rewrite <- seq_shift, map_map. exact IH.
Qed.

Lemma block_eq c : w32 c -> chacha_block (chacha_words key nonce) c = chacha20_block key c nonce.
Proof.
  intros Hc. unfold chacha_block, chacha20_block.
  assert (TL : length (transform_state (chacha_words key nonce) c) = 16%nat).
  { unfold transform_state. rewrite upd_length, zipwith_length.
    pose proof words_rep as [WL WR]. rewrite WL.
    assert (R0 : rep (upd (chacha_words key nonce) 12 c) (set (init_state key 0 nonce) 12 c)) by (apply rep_upd; [apply words_rep|lia|exact Hc]).
    pose proof (iter_rep 10 _ _ R0) as [IL _]. rewrite IL. reflexivity. }
  rewrite (list_seq (transform_state (chacha_words key nonce) c)), TL.
  rewrite flat_map_concat_map, map_map, <- flat_map_concat_map.
  apply flat_map_ext_in. intros i Hi. apply in_seq in Hi. f_equal. apply transform_eq; [assumption|lia].
Qed.

End Block.

Lemma block_length key c nonce : length (chacha20_block key c nonce) = 64%nat.
Proof. unfold chacha20_block. cbn [seq flat_map]. rewrite !app_length, !le_encode_length. reflexivity. Qed.
Lemma block_bytes key c nonce : bytes (chacha20_block key c nonce).
Proof. unfold chacha20_block. apply bytes_flat_map. intros. apply le_encode_bytes. Qed.
