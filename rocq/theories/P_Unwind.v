(** Runs that keep their effects: generic facts. *)
From Verif Require Import BaseFacts M_Unwind HistUnwind M_Poly1305 P_Ctr.
From Coq Require Import ZifyBool ZifyNat.

Lemma upd_length {A} (l : list A) : forall i v, length (upd l i v) = length l.
Proof. induction l as [|x l IH]; intros [|i] v; cbn [upd length]; auto. Qed.
Lemma upd_app {A} (p : list A) x q v : upd (p ++ x :: q) (length p) v = p ++ v :: q.
Proof. induction p as [|y p IH]; cbn [app length upd]; [reflexivity|now rewrite IH]. Qed.

Lemma skipn_skipn {A} (l : list A) : forall a b, skipn a (skipn b l) = skipn (a + b) l.
Proof.
  induction l as [|x l IH]; intros a b; [now rewrite !skipn_nil|].
  destruct b as [|b]; [now rewrite Nat.add_0_r|]. rewrite Nat.add_succ_r. apply IH.
Qed.
Lemma store_app o w1 w2 : store o (w1 ++ w2) = store (store o w1) w2.
Proof. apply fold_left_app. Qed.
Lemma store_length w : forall o, length (store o w) = length o.
Proof. induction w as [|[i v] w IH]; intros o; cbn [store fold_left fst snd]; [reflexivity|]. unfold store in IH. rewrite IH. apply upd_length. Qed.

(** The buffer changes through the recorded writes only, which are in range. *)
Definition honest {S A} (m : U S A) : Prop := forall s o,
  out_after (m s o) = store o (writes (m s o)) /\ Forall (fun iv => (fst iv < length o)%nat) (writes (m s o)).
Lemma honest_len {S A} (m : U S A) s o : honest m -> length (out_after (m s o)) = length o.
Proof. intros H. rewrite (proj1 (H s o)). apply store_length. Qed.

Lemma honest_lift {S A} (r : res A) : @honest S A (lift r).
Proof. split; [reflexivity|constructor]. Qed.
Lemma honest_ret {S A} (a : A) : @honest S A (retU a).
Proof. split; [reflexivity|constructor]. Qed.
Lemma honest_get_self {S} : @honest S S get_self.
Proof. split; [reflexivity|constructor]. Qed.
Lemma honest_set_self {S} (x : S) : honest (set_self x).
Proof. split; [reflexivity|constructor]. Qed.
Lemma honest_get_out {S} : @honest S _ get_out.
Proof. split; [reflexivity|constructor]. Qed.
Lemma honest_put {S} i v : @honest S _ (put i v).
Proof.
  intros s o. unfold put. destruct (Nat.ltb_spec i (length o)); cbn; split; auto.
Qed.
Lemma honest_bind {S A B} (m : U S A) (k : A -> U S B) : honest m -> (forall a, honest (k a)) -> honest (bindU m k).
Proof.
  intros Hm Hk s o. destruct (Hm s o) as [E F]. unfold bindU. destruct (outcome (m s o)) as [a|]; cbn [out_after writes].
  - destruct (Hk a (self_after (m s o)) (out_after (m s o))) as [E' F']. rewrite store_app, <- E, E'.
    split; [reflexivity|]. apply Forall_app. split; [exact F|]. eapply Forall_impl; [|exact F']. intros iv Hiv. rewrite E, store_length in Hiv. exact Hiv.
  - auto.
Qed.
Create HintDb honest.
Global Hint Resolve honest_lift honest_ret honest_get_self honest_set_self honest_get_out honest_put : honest.
Ltac honest := repeat first
  [ apply honest_bind; [|intros ?] | solve [auto with honest]
  | match goal with |- honest (if ?c then _ else _) => destruct c end
  | match goal with |- honest (match ?c with _ => _ end) => destruct c end ].
Lemma honest_put_all {S} l : forall off, @honest S _ (put_all off l).
Proof. induction l as [|v l IH]; intros off; cbn [put_all]; honest; apply IH. Qed.
Global Hint Resolve honest_put_all : honest.

Lemma honest_next b : honest (u_next b).
Proof. unfold u_next. honest. Qed.
Global Hint Resolve honest_next : honest.
Lemma honest_process_loop b input : forall i n, honest (u_process_loop b i n input).
Proof. induction input as [|z input IH]; intros i [|n]; cbn [u_process_loop]; honest; apply IH. Qed.
Global Hint Resolve honest_process_loop : honest.
Lemma honest_process b input : honest (u_process b input).
Proof. unfold u_process. honest. Qed.
Lemma honest_xor_chunk block : forall off n c, honest (u_xor_chunk off n block c).
Proof. induction block as [|y block IH]; intros off [|n] [|z c]; cbn [u_xor_chunk]; honest; apply IH. Qed.
Global Hint Resolve honest_xor_chunk : honest.
Lemma honest_ctr_loop b blk ins : forall i off outs, honest (u_ctr_loop b blk i off ins outs).
Proof. induction ins as [|c ins IH]; intros i off [|n outs]; cbn [u_ctr_loop]; honest; apply IH. Qed.
Global Hint Resolve honest_ctr_loop : honest.
Lemma honest_ccp_encrypt b key input nonce data : honest (u_ccp_encrypt b key input nonce data).
Proof. unfold u_ccp_encrypt, u_aead_process. honest. Qed.
Lemma honest_ccp_decrypt b key input nonce data tag : honest (u_ccp_decrypt b key input nonce data tag).
Proof. unfold u_ccp_decrypt, u_aead_process. honest. Qed.
Lemma honest_gcm_encrypt E b k input nonce data : honest (u_gcm_encrypt E b k input nonce data).
Proof. unfold u_gcm_encrypt, u_gcm_process. honest. Qed.
Lemma honest_gcm_decrypt E b k input nonce data tag : honest (u_gcm_decrypt E b k input nonce data tag).
Proof. unfold u_gcm_decrypt, u_gcm_process. honest. Qed.
Lemma honest_write_digest P A b p : honest (u_write_digest P A b p).
Proof. unfold u_write_digest. cbv zeta. honest. Qed.
Global Hint Resolve honest_write_digest : honest.
Lemma honest_write_tag P A b h : honest (u_write_tag P A b h).
Proof. unfold u_write_tag. honest. Qed.
Lemma honest_extract H b salt ikm : honest (u_extract H b salt ikm).
Proof. unfold u_extract. honest. Qed.
Lemma honest_expand_loop H b prk info cs : forall i h off, honest (u_expand_loop H b prk info i h off cs).
Proof. induction cs as [|n cs IH]; intros i h off; cbn [u_expand_loop]; honest; apply IH. Qed.
Global Hint Resolve honest_expand_loop : honest.
Lemma honest_expand H b prk info : honest (u_expand H b prk info).
Proof. unfold u_expand. cbv zeta. honest. Qed.

(** A run of stores from left to right. *)
Definition wr (off : nat) (l : list Z) : list (nat * Z) := combine (seq off (length l)) l.
Lemma wr_cons off v l : wr off (v :: l) = (off, v) :: wr (S off) l.
Proof. reflexivity. Qed.
Lemma wr_app l1 : forall off l2, wr off (l1 ++ l2) = wr off l1 ++ wr (off + length l1) l2.
Proof.
  induction l1 as [|v l1 IH]; intros off l2; [now rewrite Nat.add_0_r|].
  rewrite <- app_comm_cons, !wr_cons, IH. cbn [app length]. now rewrite Nat.add_succ_r.
Qed.
Lemma wr_In l : forall off i v, In (i, v) (wr off l) -> (off <= i < off + length l)%nat /\ v = nth (i - off) l 0.
Proof.
  induction l as [|x l IH]; intros off i v; [intros []|]. rewrite wr_cons. cbn [length]. intros [H|H].
  - injection H as <- <-. rewrite Nat.sub_diag. split; [lia|reflexivity].
  - apply IH in H. destruct H as [H ->]. split; [lia|]. replace (i - off)%nat with (S (i - S off))%nat by lia. reflexivity.
Qed.
Lemma store_wr l : forall o off, (off + length l <= length o)%nat ->
  store o (wr off l) = firstn off o ++ l ++ skipn (off + length l) o.
Proof.
  induction l as [|x l IH]; intros o off Ho.
  - cbn [length app]. rewrite Nat.add_0_r. symmetry. apply firstn_skipn.
  - rewrite wr_cons. cbn [length] in Ho. cbn [store fold_left fst snd]. fold (store (upd o off x) (wr (S off) l)).
    rewrite IH by (rewrite upd_length; lia).
    assert (E : o = firstn off o ++ nth off o 0 :: skipn (S off) o).
    { transitivity (firstn off o ++ skipn off o); [symmetry; apply firstn_skipn|]. f_equal.
      assert (L : (off < length o)%nat) by lia. clear -L. revert off L.
      induction o as [|y o IHo]; intros [|off] L; cbn [length] in L; cbn [skipn nth]; try lia; [reflexivity|]. apply IHo. lia. }
    assert (U : upd o off x = firstn off o ++ x :: skipn (S off) o).
    { rewrite E at 1. pose proof (upd_app (firstn off o) (nth off o 0) (skipn (S off) o) x) as K.
      rewrite firstn_length, Nat.min_l in K by lia. exact K. }
    rewrite U.
    clear -Ho. set (p := firstn off o). set (q := skipn (S off) o).
    assert (L : length p = off) by (unfold p; rewrite firstn_length; lia).
    change (p ++ x :: q) with (p ++ [x] ++ q). rewrite (app_assoc p [x] q).
    rewrite firstn_app, skipn_app. replace (S off - length (p ++ [x]))%nat with 0%nat by (rewrite app_length, L; cbn [length]; lia).
    rewrite firstn_O, app_nil_r, firstn_all2 by (rewrite app_length, L; cbn [length]; lia).
    rewrite (skipn_all2 (p ++ [x])) by (rewrite app_length, L; cbn [length]; lia).
    replace (S off + length l - length (p ++ [x]))%nat with (length l) by (rewrite app_length, L; cbn [length]; lia).
    unfold q. rewrite skipn_skipn. rewrite <- app_assoc. cbn [app]. f_equal. f_equal. f_equal. f_equal. cbn [length]. lia.
Qed.
Lemma store_all o l : length l = length o -> store o (wr 0 l) = l.
Proof. intros H. rewrite store_wr by lia. cbn [firstn app]. rewrite skipn_all2 by lia. apply app_nil_r. Qed.

(** Any moment of such a run: each byte is the old one or the new one. *)
Lemma wr_firstn k l : forall off, firstn k (wr off l) = wr off (firstn k l).
Proof.
  revert k. induction l as [|x l IH]; intros [|k] off; try reflexivity.
  cbn [firstn]. rewrite !wr_cons. cbn [firstn]. now rewrite IH.
Qed.

Lemma put_all_run {S} l : forall off (s : S) o, (off + length l <= length o)%nat ->
  put_all off l s o = mkRun (wr off l) s (store o (wr off l)) (Ok tt).
Proof.
  induction l as [|v l IH]; intros off s o Ho; [reflexivity|].
  cbn [put_all length] in *. unfold bindU, put. rewrite (proj2 (Nat.ltb_lt _ _)) by lia.
  cbn [outcome self_after out_after writes]. rewrite IH by (rewrite upd_length; lia). reflexivity.
Qed.

(** ** The counter-mode loop *)
Lemma xor_chunk_run block : forall c off n o, (off + n <= length o)%nat ->
  let l := firstn n (xorl c block) in
  u_xor_chunk off n block c tt o = mkRun (wr off l) tt (store o (wr off l)) (Ok tt).
Proof.
  induction block as [|y block IH]; intros [|z c] off [|n] o Ho; cbn [u_xor_chunk]; try reflexivity.
  unfold bindU, put. rewrite (proj2 (Nat.ltb_lt _ _)) by lia. cbn [outcome self_after out_after writes].
  rewrite IH by (rewrite upd_length; lia). reflexivity.
Qed.

Lemma ctr_sim b blk ins : forall outs i pre,
  let r := u_ctr_loop b blk i (length pre) ins (map (@length Z) outs) tt (pre ++ concat outs) in
  rmap (fun _ => out_after r) (outcome r) = rmap (fun os => pre ++ concat os) (ctr_loop b blk i ins outs).
Proof.
  induction ins as [|c ins IH]; intros [|o outs] i pre; cbn [u_ctr_loop ctr_loop map];
    unfold bindU, lift; cbn [outcome writes self_after out_after];
    destruct (uchk b 32 (i + 1)) as [i'|]; try reflexivity.
  cbn [bind app outcome out_after].
  rewrite xor_chunk_run by (cbn [concat]; rewrite !app_length; lia). cbn [outcome writes self_after out_after].
  set (l := firstn (length o) (xorl c (blk i))).
  assert (Ll : (length l <= length o)%nat) by (unfold l; rewrite firstn_length; lia).
  assert (E : store (pre ++ concat (o :: outs)) (wr (length pre) l) = (pre ++ xor_chunk (blk i) c o) ++ concat outs).
  { rewrite store_wr by (cbn [concat]; rewrite !app_length; lia). cbn [concat].
    rewrite firstn_app, Nat.sub_diag, firstn_all, firstn_O, app_nil_r, <- app_assoc. f_equal.
    unfold xor_chunk. fold l. cbv zeta. rewrite <- app_assoc. f_equal.
    rewrite skipn_app, skipn_all2 by lia. cbn [app]. replace (length pre + length l - length pre)%nat with (length l) by lia.
    rewrite skipn_app. replace (length l - length o)%nat with 0%nat by lia. reflexivity. }
  rewrite E.
  assert (Lx : length (xor_chunk (blk i) c o) = length o).
  { unfold xor_chunk. cbv zeta. fold l. rewrite app_length, skipn_length. lia. }
  specialize (IH outs i' (pre ++ xor_chunk (blk i) c o)). cbv zeta in IH.
  rewrite app_length, Lx, (Nat.add_comm (length pre)) in IH.
  destruct (u_ctr_loop b blk i' (length o + length pre) ins (map (length (A:=Z)) outs) tt
         ((pre ++ xor_chunk (blk i) c o) ++ concat outs)) as [w s o' [u|]]; cbn [outcome out_after rmap] in *.
  - destruct (ctr_loop b blk i' ins outs) as [os|]; [|discriminate]. cbn [rmap bind] in *.
    injection IH as ->. f_equal. cbn [concat]. now rewrite <- app_assoc.
  - destruct (ctr_loop b blk i' ins outs) as [os|]; [discriminate|reflexivity].
Qed.

Section L.
Variables (n : nat) (blk : Z -> list Z).
Hypothesis Hn : (0 < n)%nat.
Hypothesis Hblk : forall c, length (blk c) = n.
(** The number of bytes the loop can write before the counter overflows. *)
Definition room (b : build) (i : Z) (input : list Z) : nat :=
  match b with Checked => n * Z.to_nat (2 ^ 32 - 1 - i) | Unchecked => length input end.

Lemma ctr_writes b : forall input output i off o, length input = length output -> 0 <= i < 2 ^ 32 ->
  (off + length input <= length o)%nat ->
  writes (u_ctr_loop b blk i off (chunks n input) (map (@length Z) (chunks n output)) tt o) =
    wr off (firstn (room b i input) (xorl input (ctr_stream blk i (length (chunks n input))))).
Proof.
  intros input. induction input as [|input Hne IH] using (chunks_ind n Hn); intros output i off o Hl Hi Ho.
  - destruct output; [|discriminate]. rewrite !chunks_nil. cbn [map u_ctr_loop]. unfold bindU, lift.
    cbn [outcome xorl zipwith]. rewrite firstn_nil.
    destruct (uchk b 32 (i + 1)); reflexivity.
  - assert (Hne' : output <> []) by (intros ->; destruct input; [congruence|discriminate]).
    rewrite (chunks_cons n input), (chunks_cons n output) by assumption. cbn [map u_ctr_loop].
    unfold bindU at 1. unfold lift at 1. cbn [outcome writes self_after out_after app].
    assert (C : (b = Checked /\ i + 1 = 2 ^ 32) \/
      (exists i', uchk b 32 (i + 1) = Ok i' /\ i' = (i + 1) mod 2 ^ 32 /\ 0 <= i' < 2 ^ 32 /\ (b = Checked -> i' = i + 1))).
    { destruct b.
      - destruct (Z.eq_dec (i + 1) (2 ^ 32)); [auto|right]. exists (i + 1). rewrite Z.mod_small by lia.
        split; [apply uchk_ok; lia|]. repeat split; lia.
      - right. exists ((i + 1) mod 2 ^ 32). split; [apply uchk_unchecked|]. split; [reflexivity|].
        split; [apply Z.mod_pos_bound; lia|discriminate]. }
    destruct C as [[-> E]|(i' & E & Ei & Ri & Hc)].
    { rewrite uchk_checked_panic by lia. cbn [writes]. unfold room. replace (2 ^ 32 - 1 - i) with 0 by lia.
      rewrite Nat.mul_0_r. reflexivity. }
    rewrite E. unfold bindU, lift. cbn [outcome writes self_after out_after].
    rewrite xor_chunk_run by (rewrite firstn_length; lia). cbn [outcome writes self_after out_after].
    rewrite IH; [|rewrite !skipn_length; lia|assumption|rewrite store_length, !skipn_length, firstn_length; lia].
    rewrite firstn_length.
    assert (Lx : length (xorl (firstn n input) (blk i)) = Nat.min n (length input)) by (rewrite xorl_length, firstn_length, Hblk; lia).
    rewrite firstn_all2 by lia.
    cbn [length]. rewrite ctr_stream_S, (Z.mod_small i), Ei, ctr_stream_mod by assumption.
    set (T := ctr_stream blk (i + 1) (length (chunks n (skipn n input)))).
    assert (X : xorl input (blk i ++ T) = xorl (firstn n input) (blk i) ++ xorl (skipn n input) T).
    { destruct (Nat.le_gt_cases n (length input)) as [Hge|Hlt].
      - rewrite <- xorl_app by (rewrite Hblk, firstn_length; lia). now rewrite firstn_skipn.
      - rewrite (skipn_all2 input) by lia. cbn [xorl zipwith]. rewrite app_nil_r. rewrite firstn_all2 by lia.
        unfold T. rewrite (skipn_all2 input), chunks_nil by lia. cbn [length].
        change (ctr_stream blk (i + 1) 0) with (@nil Z). now rewrite app_nil_r. }
    rewrite X.
    assert (R : exists m, room b i input = (n + m)%nat /\ firstn m (xorl (skipn n input) T) = firstn (room b i' (skipn n input)) (xorl (skipn n input) T)
       \/ (length input <= n /\ length input <= room b i input)%nat).
    { destruct b; unfold room.
      - exists (n * Z.to_nat (2 ^ 32 - 1 - i'))%nat. left. split; [|reflexivity]. rewrite (Hc eq_refl).
        replace (Z.to_nat (2 ^ 32 - 1 - i)) with (S (Z.to_nat (2 ^ 32 - 1 - (i + 1)))) by lia. lia.
      - destruct (Nat.le_gt_cases n (length input)); exists (length input - n)%nat; [left|right; lia].
        rewrite skipn_length. split; [lia|reflexivity]. }
    destruct R as (m & [[R1 R2]|[R1 R2]]).
    + rewrite R1, firstn_app, Lx. rewrite (firstn_all2 (xorl (firstn n input) (blk i))) by lia.
      destruct (Nat.le_gt_cases n (length input)) as [Hge|Hlt].
      * replace (n + m - Nat.min n (length input))%nat with m by lia. rewrite R2, wr_app, Lx. cbn [app]. rewrite Ei. f_equal. f_equal. lia.
      * rewrite (skipn_all2 input) by lia. cbn [xorl zipwith]. rewrite !firstn_nil, app_nil_r. cbn [wr length seq combine].
        now rewrite app_nil_r.
    + rewrite (skipn_all2 input) by lia. cbn [xorl zipwith]. rewrite !firstn_nil, app_nil_r. cbn [wr length seq combine].
      rewrite app_nil_r. rewrite (firstn_all2 (xorl (firstn n input) (blk i))) by lia. reflexivity.
Qed.
End L.
