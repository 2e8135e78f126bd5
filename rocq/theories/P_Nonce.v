(** Two messages under one key and nonce. *)
From Verif Require Import Base BaseFacts M_Gcm M_Poly1305 P_Ctr P_Gcm P_Ccp.

Lemma xorl_pair : forall a c s, (length a <= length s)%nat -> (length c <= length s)%nat -> xorl (xorl a s) (xorl c s) = xorl a c.
Proof.
  unfold xorl. induction a as [|x a IH]; intros [|y c] [|z s] L1 L2; cbn [length] in *; try lia; try reflexivity.
  cbn [zipwith]. rewrite IH by lia. f_equal.
  apply Z.bits_inj'. intros n _. rewrite !Z.lxor_spec. now destruct (Z.testbit x n), (Z.testbit y n), (Z.testbit z n).
Qed.
Lemma xorl_app_r a s t : (length a <= length s)%nat -> xorl a (s ++ t) = xorl a s.
Proof.
  unfold xorl. revert s. induction a as [|x a IH]; intros [|z s] L; cbn [length] in *; try lia; try reflexivity.
  cbn [zipwith app]. f_equal. apply IH. lia.
Qed.
Lemma ctr_stream_split blk : forall N M i, exists t, ctr_stream blk i (N + M) = ctr_stream blk i N ++ t.
Proof.
  induction N as [|N IH]; intros M i; [exists (ctr_stream blk i M); reflexivity|].
  cbn [Nat.add]. rewrite !ctr_stream_S. destruct (IH M (i + 1)) as [t Et]. exists t. rewrite Et, app_assoc. reflexivity.
Qed.
Lemma ctr_pair blk n i a c N M : (forall N, length (ctr_stream blk i N) = (n * N)%nat) ->
  (length a <= n * N)%nat -> (length c <= n * M)%nat ->
  xorl (xorl a (ctr_stream blk i N)) (xorl c (ctr_stream blk i M)) = xorl a c.
Proof.
  intros L La Lc. set (s := ctr_stream blk i (N + M)).
  assert (E1 : xorl a (ctr_stream blk i N) = xorl a s).
  { unfold s. destruct (ctr_stream_split blk N M i) as [t ->]. rewrite xorl_app_r; [reflexivity|]. rewrite L. exact La. }
  assert (E2 : xorl c (ctr_stream blk i M) = xorl c s).
  { unfold s. rewrite Nat.add_comm. destruct (ctr_stream_split blk M N i) as [t ->]. rewrite xorl_app_r; [reflexivity|]. rewrite L. exact Lc. }
  rewrite E1, E2. apply xorl_pair; unfold s; rewrite L; lia.
Qed.
Lemma crypt_pair key nonce m m' : xorl (crypt key nonce m) (crypt key nonce m') = xorl m m'.
Proof.
  unfold crypt, kstream. apply (ctr_pair _ 64); [intros N; apply (kstream_length key nonce)|apply nblk_64|apply nblk_64].
Qed.
