(** The counter-mode loop shared by poly1305.rs and gcm.rs. *)
From Verif Require Import BaseFacts Mono M_Poly1305.
From Coq Require Import ZifyBool ZifyNat.

Definition ctr_stream (blk : Z -> list Z) (i : Z) (N : nat) : list Z :=
  concat (map (fun j => blk ((i + Z.of_nat j) mod 2 ^ 32)) (seq 0 N)).

Lemma ctr_stream_S blk i N : ctr_stream blk i (S N) = blk (i mod 2 ^ 32) ++ ctr_stream blk (i + 1) N.
Proof.
  unfold ctr_stream. cbn [seq map concat]. rewrite Z.add_0_r. f_equal. f_equal.
  rewrite <- seq_shift, map_map. apply map_ext. intros j. do 2 f_equal. lia.
Qed.
Lemma ctr_stream_mod blk i N : ctr_stream blk (i mod 2 ^ 32) N = ctr_stream blk i N.
Proof.
  unfold ctr_stream. f_equal. apply map_ext. intros j. f_equal. now rewrite Zplus_mod_idemp_l.
Qed.
Lemma ctr_stream_length blk n i N : (forall c, length (blk c) = n) -> length (ctr_stream blk i N) = (N * n)%nat.
Proof.
  intros H. revert i. induction N as [|N IH]; intros i; [reflexivity|].
  rewrite ctr_stream_S, app_length, H, IH. lia.
Qed.

Lemma xor_chunk_eq blk c o : length c = length o -> (length c <= length blk)%nat -> xor_chunk blk c o = xorl c blk.
Proof.
  intros H1 H2. unfold xor_chunk. assert (L : length (xorl c blk) = length o) by (rewrite xorl_length; lia).
  rewrite firstn_all2 by lia. rewrite L, skipn_all2 by lia. apply app_nil_r.
Qed.

Section L.
Variables (n : nat) (blk : Z -> list Z).
Hypothesis Hn : (0 < n)%nat.
Hypothesis Hblk : forall c, length (blk c) = n.

Lemma ctr_loop_ok b : forall input output i, length input = length output -> 0 <= i < 2 ^ 32 ->
  b = Unchecked \/ i + len (chunks n input) + 1 < 2 ^ 32 ->
  exists outs, ctr_loop b blk i (chunks n input) (chunks n output) = Ok outs /\
    concat outs = xorl input (ctr_stream blk i (length (chunks n input))).
Proof.
  intros input. induction input as [|input Hne IH] using (chunks_ind n Hn); intros output i Hl Hi Hb.
  - destruct output; [|discriminate]. rewrite !chunks_nil in *. cbn [ctr_loop].
    exists []. split; [|reflexivity].
    destruct b; [|rewrite uchk_unchecked; reflexivity]. destruct Hb as [|Hb]; [discriminate|].
    change (len (@nil (list Z))) with 0 in Hb. rewrite uchk_ok by lia. reflexivity.
  - assert (Hne' : output <> []) by (intros ->; destruct input; [congruence|discriminate]).
    rewrite (chunks_cons n input), (chunks_cons n output) in * by assumption.
    rewrite len_cons in Hb. pose proof (len_nonneg (chunks n (skipn n input))).
    cbn [ctr_loop].
    assert (exists i', uchk b 32 (i + 1) = Ok i' /\ i' = (i + 1) mod 2 ^ 32 /\ 0 <= i' < 2 ^ 32 /\
       (b = Unchecked \/ i' + len (chunks n (skipn n input)) + 1 < 2 ^ 32)) as (i' & E & Ei & Ri & Hb').
    { destruct b.
      - destruct Hb as [|Hb]; [discriminate|]. exists (i + 1). rewrite Z.mod_small by lia.
        split; [apply uchk_ok; lia|]. repeat split; try lia; right; lia.
      - exists ((i + 1) mod 2 ^ 32). split; [apply uchk_unchecked|]. split; [reflexivity|].
        split; [apply Z.mod_pos_bound; lia|auto]. }
    rewrite E. cbn [bind].
    destruct (IH (skipn n output) i' ltac:(rewrite !skipn_length; lia) Ri Hb') as (outs & E1 & C1).
    rewrite E1. cbn [bind]. eexists. split; [reflexivity|].
    cbn [concat length]. rewrite C1, ctr_stream_S, Ei, ctr_stream_mod.
    rewrite (Z.mod_small i) by assumption.
    rewrite xor_chunk_eq; [|rewrite !firstn_length; lia|rewrite Hblk, firstn_length; lia].
    destruct (Nat.le_gt_cases n (length input)) as [Hge|Hlt].
    + rewrite <- xorl_app by (rewrite Hblk, firstn_length; lia). now rewrite firstn_skipn.
    + rewrite (skipn_all2 input) by lia. rewrite chunks_nil. cbn [length].
      change (ctr_stream blk (i + 1) 0) with (@nil Z). rewrite !app_nil_r. now rewrite firstn_all2 by lia.
Qed.

Lemma ctr_loop_panic : forall input output i, length input = length output -> 0 <= i < 2 ^ 32 ->
  2 ^ 32 <= i + len (chunks n input) + 1 ->
  ctr_loop Checked blk i (chunks n input) (chunks n output) = Panic.
Proof.
  intros input. induction input as [|input Hne IH] using (chunks_ind n Hn); intros output i Hl Hi Hb.
  - destruct output; [|discriminate]. rewrite !chunks_nil in *. cbn [ctr_loop].
    change (len (@nil (list Z))) with 0 in Hb. rewrite uchk_checked_panic by lia. reflexivity.
  - assert (Hne' : output <> []) by (intros ->; destruct input; [congruence|discriminate]).
    rewrite (chunks_cons n input), (chunks_cons n output) in * by assumption.
    rewrite len_cons in Hb. cbn [ctr_loop].
    destruct (Z.lt_ge_cases (i + 1) (2 ^ 32)) as [Hlt|Hge].
    + rewrite uchk_ok by lia. cbn [bind]. rewrite IH; [reflexivity| | |].
      * rewrite !skipn_length. lia.
      * lia.
      * lia.
    + rewrite uchk_checked_panic by lia. reflexivity.
Qed.

End L.

Lemma chunks_len n (Hn : (0 < n)%nat) (l : list Z) : len (chunks n l) = (len l + Z.of_nat n - 1) / Z.of_nat n.
Proof.
  unfold len. rewrite chunks_count by assumption.
  rewrite Nat2Z.inj_div. f_equal. lia.
Qed.

Lemma ctr_loop_mono blk : forall ins outs i, rle (ctr_loop Checked blk i ins outs) (ctr_loop Unchecked blk i ins outs).
Proof. induction ins as [|x ins IH]; intros [|o outs] i; cbn [ctr_loop]; mono. Qed.
