(** A ciphertext and a tag that AES-GCM accepts under two keys. *)
From Verif Require Import BaseFacts S_Gf2 S_Gcm P_Gf2 P_Ghash P_Ctr P_Gf128 P_Forge.
From Coq Require Import ZifyBool ZifyNat.
Local Opaque gf128_mul block_poly poly_block.

Add Ring gfring : gf_ring.
Lemma gf_add_self x : gfadd x x = gf0.
Proof. apply gf_ext. apply Z.lxor_nilpotent. Qed.
Lemma gf_inv x : x <> gf0 -> exists y, gfmul x y = gf1.
Proof.
  intros N0. destruct (inverse (val x) (val_R x)) as (c & Hc & Ec).
  { intros E. apply N0. apply gf_ext. exact E. }
  exists (mk c Hc). apply gf_ext. exact Ec.
Qed.
Lemma gf_sum_neq0 x y : x <> y -> gfadd x y <> gf0.
Proof.
  intros N0 E. apply N0. transitivity (gfadd (gfadd x y) y); [|rewrite E; ring].
  transitivity (gfadd x (gfadd y y)); [rewrite gf_add_self; ring|ring].
Qed.
(** The block that makes the two hashes, each followed by its length block and masked, agree. *)
Lemma solve H H' g g' l l' e e' : H <> H' -> exists x,
  gfadd (gfmul H (gfadd (gfmul H (gfadd g x)) l)) e = gfadd (gfmul H' (gfadd (gfmul H' (gfadd g' x)) l')) e'.
Proof.
  intros N0. set (D := gfadd (gfmul H H) (gfmul H' H')).
  assert (ND : D <> gf0).
  { unfold D. intros E. assert (Q : gfmul (gfadd H H') (gfadd H H') = gf0).
    { transitivity (gfadd (gfadd (gfmul H H) (gfmul H' H')) (gfadd (gfmul H H') (gfmul H H'))); [ring|]. rewrite gf_add_self, E. ring. }
    apply gf_integral in Q. destruct Q as [Q|Q]; exact (gf_sum_neq0 _ _ N0 Q). }
  destruct (gf_inv D ND) as [d Ed].
  set (K := gfadd (gfmul H (gfadd (gfmul H g) l)) e). set (K' := gfadd (gfmul H' (gfadd (gfmul H' g') l')) e').
  exists (gfmul d (gfadd K K')).
  transitivity (gfadd K (gfmul (gfmul H H) (gfmul d (gfadd K K')))); [unfold K; ring|].
  transitivity (gfadd K' (gfmul (gfmul H' H') (gfmul d (gfadd K K')))); [|unfold K'; ring].
  set (v := gfmul d (gfadd K K')).
  assert (DV : gfadd (gfmul (gfmul H H) v) (gfmul (gfmul H' H') v) = gfadd K K').
  { transitivity (gfmul (gfmul D d) (gfadd K K')); [unfold D, v; ring|]. rewrite Ed. ring. }
  transitivity (gfadd K (gfadd (gfadd (gfmul (gfmul H H) v) (gfmul (gfmul H' H') v)) (gfmul (gfmul H' H') v))).
  - transitivity (gfadd (gfadd K (gfmul (gfmul H H) v)) (gfadd (gfmul (gfmul H' H') v) (gfmul (gfmul H' H') v))); [rewrite gf_add_self; ring|ring].
  - rewrite DV. transitivity (gfadd (gfadd K K) (gfadd K' (gfmul (gfmul H' H') v))); [ring|rewrite gf_add_self; ring].
Qed.
Lemma blocks_full k l m : length l = (k * 16)%nat -> blocks (l ++ m) = blocks l ++ blocks m.
Proof. intros E. rewrite !blocks_eq. rewrite (chunks_app_full 16 k l m ltac:(lia) E). apply map_app. Qed.
Lemma blocks_one c : length c = 16%nat -> blocks c = [c].
Proof. intros E. unfold blocks, zero_pad. rewrite E. change (repeat 0 ((16 - 16 mod 16) mod 16)) with (@nil Z). rewrite app_nil_r. apply chunks_short; [destruct c; [discriminate E|discriminate]|lia]. Qed.
Lemma input_app k A l c : length l = (k * 16)%nat -> length c = 16%nat ->
  ghash_input A (l ++ c) = (blocks A ++ blocks l) ++ [c; be_encode 8 (8 * len A) ++ be_encode 8 (8 * (len l + 16))].
Proof.
  intros El Ec. unfold ghash_input. rewrite (blocks_full k l c El), (blocks_one c Ec), <- !app_assoc. cbn [app].
  replace (len (l ++ c)) with (len l + 16) by (unfold len; rewrite app_length, Ec; lia). reflexivity.
Qed.
Definition ghf (H : list Z) (l : list (list Z)) : gf := fold_left (fun y a => gfmul (blk H) (gfadd y a)) (map blk l) gf0.
Lemma gh_ghf H l : gh H l = val (ghf H l).
Proof. exact (gh_fold H l gf0). Qed.
Lemma ghf_two H l c d : ghf H (l ++ [c; d]) = gfmul (blk H) (gfadd (gfmul (blk H) (gfadd (ghf H l) (blk c))) (blk d)).
Proof. unfold ghf. rewrite map_app, fold_left_app. reflexivity. Qed.
Lemma poly_block_range x : 0 <= val x < 2 ^ 128. Proof. exact (val_R x). Qed.
Lemma blk_poly_block x : blk (poly_block (val x)) = x.
Proof. apply gf_ext. rewrite val_blk. apply block_poly_block. apply poly_block_range. Qed.
Lemma tag_val CIPH IV A C : length (CIPH (J0 IV)) = 16%nat ->
  block_poly (gcm_auth_tag CIPH IV A C) = val (gfadd (ghf (CIPH (repeat 0 16)) (ghash_input A C)) (blk (CIPH (J0 IV)))).
Proof.
  intros HJ. rewrite tag_mask, block_poly_xorl by (apply poly_block_ok || exact HJ).
  unfold GHASH. fold (gh (CIPH (repeat 0 16)) (ghash_input A C)). rewrite block_poly_block by apply gh_range.
  rewrite gh_ghf, val_add, val_blk. reflexivity.
Qed.
Theorem two_keys C1 C2 IV IV' A A' pre k : length pre = (k * 16)%nat ->
  (bytes (C1 (repeat 0 16)) /\ length (C1 (repeat 0 16)) = 16%nat) -> (bytes (C2 (repeat 0 16)) /\ length (C2 (repeat 0 16)) = 16%nat) ->
  (bytes (C1 (J0 IV)) /\ length (C1 (J0 IV)) = 16%nat) -> (bytes (C2 (J0 IV')) /\ length (C2 (J0 IV')) = 16%nat) ->
  (forall c, bytes (gcm_auth_tag C1 IV A c) /\ length (gcm_auth_tag C1 IV A c) = 16%nat) ->
  (forall c, bytes (gcm_auth_tag C2 IV' A' c) /\ length (gcm_auth_tag C2 IV' A' c) = 16%nat) ->
  C1 (repeat 0 16) <> C2 (repeat 0 16) ->
  exists c, length c = 16%nat /\ bytes c /\ gcm_auth_tag C1 IV A (pre ++ c) = gcm_auth_tag C2 IV' A' (pre ++ c).
Proof.
  intros Hp [H1 H1'] [H2 H2'] [J1 J1'] [J2 J2'] T1 T2 Ne.
  set (K1 := C1 (repeat 0 16)) in *. set (K2 := C2 (repeat 0 16)) in *.
  assert (NB : blk K1 <> blk K2).
  { intros E. apply Ne. apply (block_poly_inj K1 K2 H1 H1' H2 H2'). rewrite <- !val_blk, E. reflexivity. }
  destruct (solve (blk K1) (blk K2) (ghf K1 (blocks A ++ blocks pre)) (ghf K2 (blocks A' ++ blocks pre))
    (blk (be_encode 8 (8 * len A) ++ be_encode 8 (8 * (len pre + 16)))) (blk (be_encode 8 (8 * len A') ++ be_encode 8 (8 * (len pre + 16))))
    (blk (C1 (J0 IV))) (blk (C2 (J0 IV'))) NB) as [x Ex].
  exists (poly_block (val x)). destruct (poly_block_ok (val x)) as [Bx Lx]. split; [exact Lx|]. split; [exact Bx|].
  apply (block_poly_inj _ _ (proj1 (T1 _)) (proj2 (T1 _)) (proj1 (T2 _)) (proj2 (T2 _))).
  rewrite !tag_val by assumption. fold K1 K2. rewrite !(input_app k _ pre (poly_block (val x)) Hp Lx), !ghf_two, !blk_poly_block.
  exact (f_equal val Ex).
Qed.
Lemma tag_block CIPH IV A C : bytes (CIPH (J0 IV)) -> length (CIPH (J0 IV)) = 16%nat ->
  bytes (gcm_auth_tag CIPH IV A C) /\ length (gcm_auth_tag CIPH IV A C) = 16%nat.
Proof.
  intros B Lk. rewrite tag_mask. unfold GHASH. destruct (poly_block_ok (gh (CIPH (repeat 0 16)) (ghash_input A C))) as [B' L']. unfold gh in B', L'.
  split; [apply xorl_bytes; assumption|]. rewrite xorl_length, L', Lk. reflexivity.
Qed.
