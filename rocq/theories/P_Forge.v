(** Two accepted (data, ciphertext, tag) triples under one nonce determine a polynomial that the hash key is a root of. *)
From Verif Require Import BaseFacts S_Gf2 S_Gcm P_Gf2 P_Ghash P_Ctr P_Roots P_Gf128.
From Coq Require Import ZifyBool ZifyNat.

Notation gpeval := (peval gf gf0 gfadd gfmul).
Notation gpsub := (psub gf gfadd gfopp).

Definition blk (B : list Z) : gf := mk (block_poly B) (proj1 (bits_sum (block_bit B) 128)).
Lemma val_blk B : val (blk B) = block_poly B. Proof. reflexivity. Qed.
Lemma block_poly_inj B B' : bytes B -> length B = 16%nat -> bytes B' -> length B' = 16%nat -> block_poly B = block_poly B' -> B = B'.
Proof.
  intros H1 H2 H3 H4 E. pose proof (rel_block B H1 H2) as R1. pose proof (rel_block B' H3 H4) as R2. rewrite E in R1.
  rewrite <- (be_encode_decode B H1), <- (be_encode_decode B' H3), H2, H4. f_equal. eapply rel_inj; eassumption.
Qed.
Lemma poly_block_poly B : bytes B -> length B = 16%nat -> poly_block (block_poly B) = B.
Proof.
  intros H1 H2. rewrite <- (rel_encode _ _ (rel_block B H1 H2)). rewrite <- H2. now apply be_encode_decode.
Qed.
Lemma block_poly_block y : 0 <= y < 2 ^ 128 -> block_poly (poly_block y) = y.
Proof.
  intros H. destruct (poly_block_ok y) as [B L]. eapply rel_inj_r; [apply (rel_block _ B L)|apply rel_poly_block, H].
Qed.
Lemma nth_xorl a b n : (n < length a)%nat -> (n < length b)%nat -> nth n (xorl a b) 0 = Z.lxor (nth n a 0) (nth n b 0).
Proof.
  revert b n. induction a as [|x a IH]; intros [|y b] n Ha Hb; cbn [length] in *; try lia.
  change (xorl (x :: a) (y :: b)) with (Z.lxor x y :: xorl a b). destruct n as [|n]; [reflexivity|]. cbn [nth]. apply IH; lia.
Qed.
Lemma block_poly_xorl a b : length a = 16%nat -> length b = 16%nat -> block_poly (xorl a b) = Z.lxor (block_poly a) (block_poly b).
Proof.
  intros La Lb. apply Z.bits_inj'. intros n Hn. rewrite Z.lxor_spec.
  destruct (bits_sum (block_bit (xorl a b)) 128) as [R1 E1]. destruct (bits_sum (block_bit a) 128) as [R2 E2]. destruct (bits_sum (block_bit b) 128) as [R3 E3].
  fold (block_poly (xorl a b)) in R1, E1. fold (block_poly a) in R2, E2. fold (block_poly b) in R3, E3.
  destruct (Z.lt_ge_cases n 128) as [H|H].
  - replace n with (Z.of_nat (Z.to_nat n)) by lia. rewrite E1, E2, E3 by lia. unfold block_bit.
    assert (Hd : (Z.to_nat n / 8 < 16)%nat) by (apply Nat.div_lt_upper_bound; lia).
    rewrite nth_xorl by lia. apply Z.lxor_spec.
  - change (2 ^ Z.of_nat 128) with (2 ^ 128) in R1, R2, R3. now rewrite !(testbit_high _ 128 n) by assumption.
Qed.

(** GHASH is polynomial evaluation. *)
Definition gpoly (l : list (list Z)) : list gf := gf0 :: rev (map blk l).
Definition gh (H : list Z) (l : list (list Z)) : Z := fold_left (fun Y Xi => gf128_mul (block_poly H) (Z.lxor Y (block_poly Xi))) l 0.
Lemma val_mul a b : val (gfmul a b) = gf128_mul (val a) (val b).
Proof. unfold gfmul, mk. change (gm (val a) (val b) = gf128_mul (val a) (val b)). unfold gm. exact eq_refl. Qed.
Lemma val_add a b : val (gfadd a b) = Z.lxor (val a) (val b). Proof. exact eq_refl. Qed.
Local Opaque gf128_mul block_poly.
Lemma fold_map_gen {P Q T} (v : Q -> P) (m : T -> Q) (f : P -> T -> P) (g : Q -> Q -> Q) :
  (forall y c, f (v y) c = v (g y (m c))) -> forall l y, fold_left f l (v y) = v (fold_left g (map m l) y).
Proof. intros H l. induction l as [|c l IH]; intros y; [reflexivity|]. cbn [map fold_left]. now rewrite H, IH. Qed.
Lemma gh_fold H l : forall y, fold_left (fun Y Xi => gf128_mul (block_poly H) (Z.lxor Y (block_poly Xi))) l (val y) =
  val (fold_left (fun y a => gfmul (blk H) (gfadd y a)) (map blk l) y).
Proof.
  apply (fold_map_gen val blk (fun Y Xi => gf128_mul (block_poly H) (Z.lxor Y (block_poly Xi))) (fun y a => gfmul (blk H) (gfadd y a))).
  intros y c. rewrite val_mul, val_add, !val_blk. reflexivity.
Qed.
Lemma gh_eval H l : gh H l = val (gpeval (gpoly l) (blk H)).
Proof.
  unfold gpoly. rewrite <- (fold_horner gf gf0 gf1 gfadd gfmul gfadd gfopp gf_ring (blk H) (map blk l)).
  exact (gh_fold H l gf0).
Qed.
Lemma gh_range H l : 0 <= gh H l < 2 ^ 128.
Proof. rewrite gh_eval. apply val_R. Qed.

Lemma tag_mask CIPH IV A C : gcm_auth_tag CIPH IV A C = xorl (GHASH (CIPH (repeat 0 16)) (ghash_input A C)) (CIPH (J0 IV)).
Proof.
  unfold gcm_auth_tag, GCTR. set (S := GHASH _ _).
  assert (LS : length S = 16%nat) by (apply poly_block_ok).
  rewrite (chunks_short 16 S) by (try lia; destruct S; discriminate).
  cbn [length seq combine map concat Nat.iter nat_rect]. now rewrite app_nil_r.
Qed.

(** The blocks of the hash input determine the input. *)
Lemma blocks_length l : length (blocks l) = Z.to_nat ((len l + 15) / 16).
Proof.
  rewrite blocks_eq, map_length. pose proof (chunks_len 16 ltac:(lia) l) as E. change (Z.of_nat 16) with 16 in E.
  replace (len l + 16 - 1) with (len l + 15) in E by lia. rewrite <- E. unfold len. lia.
Qed.
Lemma blocks_ok l : bytes l -> Forall (fun B => bytes B /\ length B = 16%nat) (blocks l).
Proof.
  intros H. rewrite blocks_eq. apply Forall_map. eapply Forall_impl; [|exact (chunks16_ok l H)]. cbv beta. intros c [L B].
  unfold pad16. split; [apply bytes_app; split; [exact B|apply bytes_repeat; unfold byte_ok; lia]|]. rewrite app_length, repeat_length. lia.
Qed.
Lemma blocks_inj l l' : length l = length l' -> blocks l = blocks l' -> l = l'.
Proof.
  intros L E. unfold blocks in E. apply (f_equal (@concat Z)) in E. rewrite !concat_chunks in E by lia.
  unfold zero_pad in E. apply (f_equal (firstn (length l))) in E. rewrite !firstn_app, Nat.sub_diag, firstn_O, app_nil_r, firstn_all in E.
  rewrite L, Nat.sub_diag, firstn_O, app_nil_r, firstn_all in E. exact E.
Qed.
Definition lenblk (A C : list Z) : list Z := be_encode 8 (8 * len A) ++ be_encode 8 (8 * len C).
Lemma lenblk_ok A C : bytes (lenblk A C) /\ length (lenblk A C) = 16%nat.
Proof. split; [apply bytes_app; split; apply be_encode_bytes|]. unfold lenblk. now rewrite app_length, !be_encode_length. Qed.
Lemma lenblk_inj A C A' C' : len A < 2 ^ 61 -> len C < 2 ^ 61 -> len A' < 2 ^ 61 -> len C' < 2 ^ 61 ->
  lenblk A C = lenblk A' C' -> length A = length A' /\ length C = length C'.
Proof.
  intros H1 H2 H3 H4 E. unfold lenblk in E.
  assert (G : forall x y, 0 <= x < 2 ^ 64 -> 0 <= y < 2 ^ 64 -> be_encode 8 x = be_encode 8 y -> x = y).
  { intros x y Hx Hy Exy. apply (f_equal be_decode) in Exy. rewrite !be_decode_encode in Exy. change (256 ^ Z.of_nat 8) with (2 ^ 64) in Exy.
    rewrite !Z.mod_small in Exy by assumption. exact Exy. }
  assert (E1 : be_encode 8 (8 * len A) = be_encode 8 (8 * len A')).
  { apply (f_equal (firstn 8)) in E. rewrite !firstn_app, !be_encode_length, !Nat.sub_diag, !firstn_O, !app_nil_r in E.
    rewrite !firstn_all2 in E by now rewrite be_encode_length. exact E. }
  rewrite E1 in E. apply app_inv_head in E.
  apply G in E1; [|unfold len in *; lia|unfold len in *; lia]. apply G in E; [|unfold len in *; lia|unfold len in *; lia].
  unfold len in *. lia.
Qed.
Lemma ghash_input_inj A C A' C' : length A = length A' -> length C = length C' -> ghash_input A C = ghash_input A' C' -> A = A' /\ C = C'.
Proof.
  intros LA LC E. unfold ghash_input in E.
  assert (EA : blocks A = blocks A').
  { apply (f_equal (firstn (length (blocks A)))) in E. rewrite firstn_app, Nat.sub_diag, firstn_O, app_nil_r, firstn_all in E.
    assert (L : length (blocks A) = length (blocks A')) by (rewrite !blocks_length; unfold len; now rewrite LA).
    rewrite L, firstn_app, Nat.sub_diag, firstn_O, app_nil_r, firstn_all in E. exact E. }
  rewrite EA in E. apply app_inv_head in E.
  apply app_inj_tail in E. destruct E as [EC _]. split; apply blocks_inj; assumption.
Qed.
Lemma ghash_input_ok A C : bytes A -> bytes C -> Forall (fun B => bytes B /\ length B = 16%nat) (ghash_input A C).
Proof.
  intros HA HC. unfold ghash_input. apply Forall_app. split; [now apply blocks_ok|]. apply Forall_app. split; [now apply blocks_ok|].
  constructor; [apply lenblk_ok|constructor].
Qed.
Lemma nth_ext_len {T} (d : T) : forall l l' : list T, length l = length l' -> (forall i, nth i l d = nth i l' d) -> l = l'.
Proof. intros l l' L H. apply (nth_ext l l' d d L). intros i _. apply H. Qed.
Lemma map_blk_inj : forall l l', Forall (fun B => bytes B /\ length B = 16%nat) l -> Forall (fun B => bytes B /\ length B = 16%nat) l' ->
  map blk l = map blk l' -> l = l'.
Proof.
  induction l as [|B l IH]; intros [|B' l'] F F' E; try discriminate; [reflexivity|].
  inversion_clear F as [|? ? [F1 F2] F3]. inversion_clear F' as [|? ? [G1 G2] G3]. cbn [map] in E. injection E as E1 E2.
  f_equal; [|now apply IH]. now apply block_poly_inj.
Qed.

Definition nblocks (A C : list Z) : nat := length (ghash_input A C).
Lemma nblocks_eq A C : Z.of_nat (nblocks A C) = (len A + 15) / 16 + (len C + 15) / 16 + 1.
Proof.
  unfold nblocks, ghash_input. rewrite !app_length, !blocks_length. cbn [length].
  assert (0 <= (len A + 15) / 16) by (apply Z.div_pos; unfold len; lia).
  assert (0 <= (len C + 15) / 16) by (apply Z.div_pos; unfold len; lia). lia.
Qed.

Lemma forge A C A' C' d : bytes A -> bytes C -> bytes A' -> bytes C' ->
  len A < 2 ^ 61 -> len C < 2 ^ 61 -> len A' < 2 ^ 61 -> len C' < 2 ^ 61 -> (A, C) <> (A', C') ->
  exists bad, (length bad <= Nat.max (nblocks A C) (nblocks A' C'))%nat /\
    forall H, bytes H -> length H = 16%nat -> Z.lxor (gh H (ghash_input A C)) (gh H (ghash_input A' C')) = d -> In H bad.
Proof.
  intros BA BC BA' BC' LA LC LA' LC' Ne.
  destruct (Z_lt_dec d 0) as [Hd|Hd0].
  { exists []. split; [apply Nat.le_0_l|]. intros H _ _ E. pose proof (gh_range H (ghash_input A C)). pose proof (gh_range H (ghash_input A' C')).
    assert (0 <= d) by (rewrite <- E; apply Z.lxor_nonneg; lia). lia. }
  destruct (Z_lt_dec d N) as [HdN|HdN].
  2: { exists []. split; [apply Nat.le_0_l|]. intros H _ _ E. exfalso. apply HdN. rewrite <- E. apply R_lxor; apply gh_range. }
  assert (Rd : R d) by (split; lia).
  set (l := ghash_input A C). set (l' := ghash_input A' C').
  set (c := gpsub (gpsub (gpoly l) (gpoly l')) [mk d Rd]).
  destruct (roots_bound gf gf0 gf1 gfadd gfmul gfadd gfopp gf_ring gf_dec gf_integral gf_search (length c) c eq_refl) as (bad & Lb & Hb).
  - intros Hz. apply Ne. unfold c in Hz.
    pose proof (psub_zero gf gf0 gf1 gfadd gfmul gfadd gfopp gf_ring _ _ Hz) as Z1.
    assert (Z2 : forall i, nth i (gpsub (rev (map blk l)) (rev (map blk l'))) gf0 = gf0).
    { intros i. specialize (Z1 (S i)). cbn [gpoly psub nth] in Z1. rewrite Z1. now destruct i. }
    assert (Z3 : pzero gf gf0 (gpsub (rev (map blk l)) (rev (map blk l')))).
    { apply Forall_forall. intros x Hx. apply (In_nth _ _ gf0) in Hx. destruct Hx as (i & _ & <-). apply Z2. }
    pose proof (psub_zero gf gf0 gf1 gfadd gfmul gfadd gfopp gf_ring _ _ Z3) as Z4.
    assert (E0 : lenblk A C = lenblk A' C').
    { specialize (Z4 0%nat). unfold l, l', ghash_input in Z4. rewrite !map_app, !rev_app_distr in Z4. cbn [map rev app nth] in Z4.
      destruct (lenblk_ok A C), (lenblk_ok A' C'). apply block_poly_inj; try assumption. exact (f_equal val Z4). }
    apply lenblk_inj in E0; try assumption. destruct E0 as [EA EC].
    assert (Ell : l = l').
    { apply map_blk_inj; [now apply ghash_input_ok|now apply ghash_input_ok|]. rewrite <- (rev_involutive (map blk l)), <- (rev_involutive (map blk l')). f_equal.
      apply (nth_ext_len gf0); [|exact Z4]. rewrite !rev_length, !map_length. unfold l, l'. 
      apply Nat2Z.inj. fold (nblocks A C) (nblocks A' C'). rewrite !nblocks_eq. unfold len. now rewrite EA, EC. }
    destruct (ghash_input_inj A C A' C' EA EC Ell) as [-> ->]. reflexivity.
  - exists (map (fun x => poly_block (val x)) bad). split.
    + rewrite map_length. unfold c in Lb. rewrite !psub_length in Lb. unfold gpoly in Lb. cbn [length] in Lb.
      rewrite !rev_length, !map_length in Lb. unfold nblocks. fold l l'. lia.
    + intros H BH LH E. apply in_map_iff. exists (blk H). split; [now apply poly_block_poly|]. apply Hb.
      unfold c. rewrite !(peval_psub gf gf0 gf1 gfadd gfmul gfadd gfopp gf_ring). apply gf_ext.
      unfold l, l' in *. rewrite !gh_eval in E. cbn [gfadd val mk peval]. rewrite E.
      cbn [gf0 gfmul mk val]. rewrite gm_comm by (apply val_R || apply R_0). rewrite gm_0_l, Z.lxor_0_r. apply Z.lxor_nilpotent.
Qed.
