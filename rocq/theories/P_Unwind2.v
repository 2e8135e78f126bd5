(** Panics that are caught: the functions of the crate. *)
From Verif Require Import BaseFacts M_Util M_Sha2 M_Hmac M_Hkdf M_ChaCha20 M_Poly1305 M_Aes M_Gcm M_Unwind HistStream HistUnwind.
From Verif Require Import S_ChaCha P_ChaCha P_Stream P_Ctr P_Unwind.
From Coq Require Import ZifyBool ZifyNat.

(** ** Simulation: outcome and final buffer are those of M_*.v *)
Lemma bindU_lift {S A B} (r : res A) (k : A -> U S B) s o :
  bindU (lift r) k s o = match r with Ok a => k a s o | Panic => mkRun [] s o Panic end.
Proof. destruct r as [a|]; [|reflexivity]. unfold bindU, lift. cbn [outcome writes self_after out_after app]. destruct (k a s o). reflexivity. Qed.
Lemma bindU_get_out {S B} (k : list Z -> U S B) s o : bindU get_out k s o = k o s o.
Proof. unfold bindU, get_out. cbn [outcome writes self_after out_after app]. destruct (k o s o). reflexivity. Qed.
Lemma bindU_get_self {S B} (k : S -> U S B) s o : bindU get_self k s o = k s s o.
Proof. unfold bindU, get_self. cbn [outcome writes self_after out_after app]. destruct (k s s o). reflexivity. Qed.
Lemma bindU_set_self {S B} (x : S) (k : unit -> U S B) s o : bindU (set_self x) k s o = k tt x o.
Proof. unfold bindU, set_self. cbn [outcome writes self_after out_after app]. destruct (k tt x o). reflexivity. Qed.
Lemma bindU_ret {S A B} (a : A) (k : A -> U S B) s o : bindU (retU a) k s o = k a s o.
Proof. exact (bindU_lift (Ok a) k s o). Qed.
Lemma bindU_run {S A B} (m : U S A) (k : A -> U S B) s o w s' o' a : m s o = mkRun w s' o' (Ok a) ->
  bindU m k s o = mkRun (w ++ writes (k a s' o')) (self_after (k a s' o')) (out_after (k a s' o')) (outcome (k a s' o')).
Proof. intros E. unfold bindU. rewrite E. reflexivity. Qed.
Lemma bindU_panic {S A B} (m : U S A) (k : A -> U S B) s o w s' o' : m s o = mkRun w s' o' Panic ->
  bindU m k s o = mkRun w s' o' Panic.
Proof. intros E. unfold bindU. rewrite E. reflexivity. Qed.
Ltac ustep := repeat first [rewrite bindU_lift|rewrite bindU_get_out|rewrite bindU_get_self|rewrite bindU_set_self|rewrite bindU_ret].

Lemma ctr_sim0 n b blk i input out : (0 < n)%nat ->
  let r := u_ctr_loop b blk i 0 (chunks n input) (map (@length Z) (chunks n out)) tt out in
  rmap (fun _ => out_after r) (outcome r) = rmap (@concat Z) (ctr_loop b blk i (chunks n input) (chunks n out)).
Proof.
  intros Hn. pose proof (ctr_sim b blk (chunks n input) (chunks n out) i []) as H. cbv zeta in *.
  cbn [length app] in H. rewrite concat_chunks in H by assumption. exact H.
Qed.

(** A loop, then a pure function of the buffer. *)
Lemma tail_sim {A} (m : U unit unit) (f : list Z -> res A) (l : res (list (list Z))) out :
  rmap (fun _ => out_after (m tt out)) (outcome (m tt out)) = rmap (@concat Z) l ->
  let r := bindU m (fun _ => bindU get_out (fun o => lift (f o))) tt out in
  rmap (fun t => (out_after r, t)) (outcome r) =
  bind l (fun os => bind (f (concat os)) (fun t => Ok (concat os, t))).
Proof.
  intros H. destruct (m tt out) as [w [] o [[]|]] eqn:E; cbn [outcome out_after rmap] in H; cbv zeta.
  - destruct l as [os|]; [|discriminate]. cbn [rmap] in H. injection H as ->.
    rewrite (bindU_run _ _ _ _ _ _ _ _ E). rewrite bindU_get_out. unfold lift. cbn [outcome out_after bind].
    destruct (f (concat os)); reflexivity.
  - destruct l; [discriminate|]. rewrite (bindU_panic _ _ _ _ _ _ _ E). reflexivity.
Qed.
Lemma tail_sim2 (m : U unit unit) (l : res (list (list Z))) out (v : bool) :
  rmap (fun _ => out_after (m tt out)) (outcome (m tt out)) = rmap (@concat Z) l ->
  let r := bindU m (fun _ => retU v) tt out in
  rmap (fun t => (out_after r, t)) (outcome r) = bind (bind l (fun os => Ok (concat os))) (fun o => Ok (o, v)).
Proof.
  intros H. destruct (m tt out) as [w [] o [[]|]] eqn:E; cbn [outcome out_after rmap] in H; cbv zeta.
  - destruct l as [os|]; [|discriminate]. cbn [rmap] in H. injection H as ->.
    rewrite (bindU_run _ _ _ _ _ _ _ _ E). reflexivity.
  - destruct l; [discriminate|]. rewrite (bindU_panic _ _ _ _ _ _ _ E). reflexivity.
Qed.

Lemma sim_ccp_encrypt b key input nonce data out :
  let r := u_ccp_encrypt b key input nonce data tt out in
  rmap (fun t => (out_after r, t)) (outcome r) = ccp_encrypt b key input nonce data out.
Proof.
  unfold u_ccp_encrypt, ccp_encrypt. cbv zeta. ustep.
  destruct (assertb (length input =? length out)%nat) as [u|]; [|reflexivity]. cbn [bind]. ustep.
  destruct (chacha_new key nonce) as [c|]; [|reflexivity]. cbn [bind].
  pose proof (tail_sim (u_aead_process b c input) (fun o => aead_tag b c o data)
    (ctr_loop b (chacha_block c) 1 (chunks 64 input) (chunks 64 out)) out) as T. cbv zeta in T. rewrite T.
  - unfold aead_process. destruct (ctr_loop _ _ _ _ _); reflexivity.
  - unfold u_aead_process. rewrite bindU_get_out. apply ctr_sim0. lia.
Qed.
Lemma sim_ccp_decrypt b key input nonce data tag out :
  let r := u_ccp_decrypt b key input nonce data tag tt out in
  rmap (fun t => (out_after r, t)) (outcome r) = ccp_decrypt b key input nonce data tag out.
Proof.
  unfold u_ccp_decrypt, ccp_decrypt. cbv zeta. ustep.
  destruct (assertb (length out =? length input)%nat) as [u|]; [|reflexivity]. cbn [bind]. ustep.
  destruct (chacha_new key nonce) as [c|]; [|reflexivity]. cbn [bind]. ustep.
  destruct (aead_tag b c input data) as [t|]; [|reflexivity]. cbn [bind]. ustep.
  destruct (verify_16 t tag) as [[|]|]; [|reflexivity|reflexivity]. cbn [bind].
  pose proof (tail_sim2 (u_aead_process b c input)
    (ctr_loop b (chacha_block c) 1 (chunks 64 input) (chunks 64 out)) out true) as T. cbv zeta in T. rewrite T.
  - unfold aead_process. destruct (ctr_loop _ _ _ _ _); reflexivity.
  - unfold u_aead_process. rewrite bindU_get_out. apply ctr_sim0. lia.
Qed.
Lemma sim_gcm_encrypt E b k input nonce data out :
  let r := u_gcm_encrypt E b k input nonce data tt out in
  rmap (fun t => (out_after r, t)) (outcome r) = gcm_encrypt E b k input nonce data out.
Proof.
  unfold u_gcm_encrypt, gcm_encrypt. cbv zeta. ustep.
  destruct (check_bounds input out nonce data) as [u|]; [|reflexivity]. cbn [bind]. ustep.
  destruct (counter nonce) as [c|]; [|reflexivity]. cbn [bind].
  pose proof (tail_sim (u_gcm_process E b k c input) (fun o => gcm_tag E b k o data c)
    (ctr_loop b (gcm_block E k c) 2 (chunks 16 input) (chunks 16 out)) out) as T. cbv zeta in T. rewrite T.
  - unfold gcm_process. destruct (ctr_loop _ _ _ _ _); reflexivity.
  - unfold u_gcm_process. rewrite bindU_get_out. apply ctr_sim0. lia.
Qed.
Lemma sim_gcm_decrypt E b k input nonce data tag out :
  let r := u_gcm_decrypt E b k input nonce data tag tt out in
  rmap (fun t => (out_after r, t)) (outcome r) = gcm_decrypt E b k input nonce data tag out.
Proof.
  unfold u_gcm_decrypt, gcm_decrypt. cbv zeta. ustep.
  destruct (check_bounds out input nonce data) as [u|]; [|reflexivity]. cbn [bind]. ustep.
  destruct (counter nonce) as [c|]; [|reflexivity]. cbn [bind]. ustep.
  destruct (gcm_tag E b k input data c) as [t|]; [|reflexivity]. cbn [bind]. ustep.
  destruct (verify_16 t tag) as [[|]|]; [|reflexivity|reflexivity]. cbn [bind].
  pose proof (tail_sim2 (u_gcm_process E b k c input)
    (ctr_loop b (gcm_block E k c) 2 (chunks 16 input) (chunks 16 out)) out true) as T. cbv zeta in T. rewrite T.
  - unfold gcm_process. destruct (ctr_loop _ _ _ _ _); reflexivity.
  - unfold u_gcm_process. rewrite bindU_get_out. apply ctr_sim0. lia.
Qed.

(** ** Streams *)
Lemma ok_pair_inj {A B} (a a' : A) (b b' : B) : Ok (a, b) = Ok (a', b') -> a = a' /\ b = b'.
Proof. intros H. injection H. auto. Qed.
Local Opaque chacha_block.
Lemma next_run b s o x s' : stream_next b s = Ok (x, s') -> u_next b s o = mkRun [] s' o (Ok x).
Proof.
  unfold stream_next, u_next. rewrite bindU_get_self. destruct (st_index s =? 64)%nat.
  - destruct (uchk b 32 (st_counter s + 1)) as [c|] eqn:Ec; [|discriminate]. cbn [bind].
    set (s1 := {| st_chacha := _; st_counter := c; st_block := chacha_block (st_chacha s) c; st_index := 0 |}).
    assert (R : (let~ c := lift (Ok c) in
      let~ _ := set_self {| st_chacha := st_chacha s; st_counter := c; st_block := st_block s; st_index := st_index s |} in
      let~ s := get_self in
      let~ _ := set_self {| st_chacha := st_chacha s; st_counter := st_counter s;
                            st_block := chacha_block (st_chacha s) (st_counter s); st_index := st_index s |} in
      let~ s := get_self in
      set_self {| st_chacha := st_chacha s; st_counter := st_counter s; st_block := st_block s; st_index := 0 |}) s o
      = mkRun [] s1 o (Ok tt)).
    { ustep. reflexivity. }
    rewrite (bindU_run _ _ _ _ _ _ _ _ R). cbn [app]. ustep.
    destruct (assertb (st_index s1 <? length (st_block s1))%nat); [|discriminate]. cbn [bind].
    intros H. destruct (ok_pair_inj _ _ _ _ H) as [<- <-]. ustep. reflexivity.
  - cbn [bind]. ustep. destruct (assertb (st_index s <? length (st_block s))%nat); [|discriminate]. cbn [bind].
    intros H. destruct (ok_pair_inj _ _ _ _ H) as [<- <-]. ustep. reflexivity.
Qed.

Section S.
Variables key nonce : list Z.
Hypothesis Hk : length key = 32%nat.
Hypothesis Hn : length nonce = 12%nat.
Hypothesis Bk : bytes key.
Hypothesis Bn : bytes nonce.
Let SI := SI key nonce.
Let ksw := ks_wrap key nonce.

Lemma next_exhausted s n o : SI Checked s n -> 2 ^ 38 <= n -> u_next Checked s o = mkRun [] s o Panic.
Proof.
  intros [Hc Hctr Hblk Hidx Hpos] Hb. unfold w32 in Hctr. unfold u_next.
  assert (I : st_index s = 64%nat) by lia. assert (C : st_counter s = 2 ^ 32 - 1) by lia.
  rewrite bindU_get_self. rewrite (proj2 (Nat.eqb_eq _ _)) by assumption. rewrite C.
  apply (bindU_panic _ _ _ _ [] s o). rewrite bindU_lift. reflexivity.
Qed.

Definition seg (f : Z -> Z) (n : Z) (input : list Z) : list Z :=
  xorl input (map (fun j => f (n + Z.of_nat j)) (seq 0 (length input))).
Lemma seg_cons f n z input : seg f n (z :: input) = Z.lxor z (f n) :: seg f (n + 1) input.
Proof.
  unfold seg. cbn [length seq map xorl zipwith]. rewrite Z.add_0_r. f_equal.
  rewrite <- seq_shift, map_map. unfold xorl. f_equal. apply map_ext. intros j. f_equal. lia.
Qed.
Lemma seg_length f input : forall n, length (seg f n input) = length input.
Proof. induction input as [|z input IH]; intros n; [reflexivity|]. rewrite seg_cons. cbn [length]. now rewrite IH. Qed.

Lemma loop_fits b input : forall i o s n, SI b s n -> (i + length input <= length o)%nat ->
  b = Unchecked \/ (0 <= n /\ n + len input <= 2 ^ 38) ->
  let w := wr i (seg ksw n input) in
  exists s', u_process_loop b i (length input) input s o = mkRun w s' (store o w) (Ok tt) /\ SI b s' (n + len input).
Proof.
  induction input as [|z input IH]; intros i o s n HS Ho Hb; cbv zeta.
  - exists s. rewrite len_nil, Z.add_0_r. split; [reflexivity|exact HS].
  - rewrite len_cons in *. pose proof (len_nonneg input). cbn [length] in Ho. cbn [u_process_loop length].
    destruct (next_ok key nonce Hk Hn Bk Bn b s n HS) as (s1 & E1 & S1).
    { destruct Hb; [auto|right; lia]. }
    rewrite (bindU_run _ _ _ _ _ _ _ _ (next_run b s o _ _ E1)). cbn [app].
    assert (P : put (S := stream) i (Z.lxor (ks_wrap key nonce n) z) s1 o =
      mkRun [(i, Z.lxor (ks_wrap key nonce n) z)] s1 (upd o i (Z.lxor (ks_wrap key nonce n) z)) (Ok tt)).
    { unfold put. rewrite (proj2 (Nat.ltb_lt _ _)) by lia. reflexivity. }
    rewrite (bindU_run _ _ _ _ _ _ _ _ P).
    destruct (IH (1 + i)%nat (upd o i (Z.lxor (ks_wrap key nonce n) z)) s1 (n + 1) S1) as (s2 & E2 & S2).
    { rewrite upd_length. lia. }
    { destruct Hb; [auto|right; lia]. }
    rewrite E2. exists s2. split.
    + cbn [writes self_after out_after outcome app]. rewrite seg_cons, wr_cons. unfold ksw. rewrite (Z.lxor_comm z). reflexivity.
    + replace (n + (1 + len input)) with (n + 1 + len input) by lia. exact S2.
Qed.

Lemma loop_over input : forall i o s n, SI Checked s n -> (i + length input <= length o)%nat ->
  0 <= n <= 2 ^ 38 -> 2 ^ 38 < n + len input ->
  let w := wr i (firstn (Z.to_nat (2 ^ 38 - n)) (seg ksw n input)) in
  exists s', u_process_loop Checked i (length input) input s o = mkRun w s' (store o w) Panic /\ SI Checked s' (2 ^ 38).
Proof.
  induction input as [|z input IH]; intros i o s n HS Ho Hn0 Hbig; cbv zeta.
  - rewrite len_nil in Hbig. lia.
  - rewrite len_cons in *. pose proof (len_nonneg input). cbn [length] in Ho. cbn [u_process_loop length].
    destruct (Z.eq_dec n (2 ^ 38)) as [En|En].
    + exists s. rewrite (bindU_panic _ _ _ _ _ _ _ (next_exhausted s n o HS ltac:(lia))).
      replace (2 ^ 38 - n) with 0 by lia. split; [reflexivity|]. now rewrite En in HS.
    + destruct (next_ok key nonce Hk Hn Bk Bn Checked s n HS) as (s1 & E1 & S1); [right; lia|].
      rewrite (bindU_run _ _ _ _ _ _ _ _ (next_run Checked s o _ _ E1)). cbn [app].
      assert (P : put (S := stream) i (Z.lxor (ks_wrap key nonce n) z) s1 o =
        mkRun [(i, Z.lxor (ks_wrap key nonce n) z)] s1 (upd o i (Z.lxor (ks_wrap key nonce n) z)) (Ok tt)).
      { unfold put. rewrite (proj2 (Nat.ltb_lt _ _)) by lia. reflexivity. }
      rewrite (bindU_run _ _ _ _ _ _ _ _ P).
      destruct (IH (1 + i)%nat (upd o i (Z.lxor (ks_wrap key nonce n) z)) s1 (n + 1) S1) as (s2 & E2 & S2).
      { rewrite upd_length. lia. } { lia. } { lia. }
      rewrite E2. exists s2. split; [|exact S2].
      cbn [writes self_after out_after outcome app]. rewrite seg_cons.
      replace (Z.to_nat (2 ^ 38 - n)) with (S (Z.to_nat (2 ^ 38 - (n + 1)))) by lia.
      cbn [firstn]. rewrite wr_cons. unfold ksw. rewrite (Z.lxor_comm z). reflexivity.
Qed.

Lemma process_seen b s n input out limit : SI b s n -> 0 <= n <= limit ->
  (b = Checked -> limit = 2 ^ 38) -> (b = Unchecked -> n + len input <= limit) ->
  exists s', u_process b input s out = (let r := u_process b input s out in
      mkRun (writes r) s' (out_after r) (outcome r)) /\
    (match outcome (u_process b input s out) with
     | Ok _ => Returned (OutBuf (out_after (u_process b input s out)))
     | Panic => Panicked (out_after (u_process b input s out)) end) =
      fst (expect_seen ksw limit n (OpEncrypt input out)) /\
    SI b s' (snd (expect_seen ksw limit n (OpEncrypt input out))).
Proof.
  intros HS Hn0 Hc Hu. unfold u_process. rewrite bindU_get_out, bindU_lift. cbn [expect_seen].
  destruct (Nat.eqb_spec (length input) (length out)) as [El|El]; cbn [assertb negb].
  2:{ exists s. cbn [outcome out_after writes self_after fst snd]. auto. }
  rewrite <- El.
  change (xorl input (map (fun j => ksw (n + Z.of_nat j)) (seq 0 (length input)))) with (seg ksw n input).
  destruct (Z.leb_spec (n + len input) limit) as [Hf|Hf].
  - destruct (loop_fits b input 0 out s n HS ltac:(lia)) as (s' & E & S').
    { destruct b; [right; rewrite <- (Hc eq_refl); lia|auto]. }
    rewrite E. exists s'. cbn [outcome out_after writes self_after fst snd]. split; [reflexivity|]. split; [|exact S'].
    do 2 f_equal. apply store_all. rewrite seg_length. exact El.
  - destruct b; [|specialize (Hu eq_refl); lia]. rewrite (Hc eq_refl) in *.
    destruct (loop_over input 0 out s n HS ltac:(lia) Hn0 Hf) as (s' & E & S').
    rewrite E. exists s'. cbn [outcome out_after writes self_after fst snd]. split; [reflexivity|]. split; [|exact S'].
    f_equal. assert (Lf : length (firstn (Z.to_nat (2 ^ 38 - n)) (seg ksw n input)) = Z.to_nat (2 ^ 38 - n)).
    { rewrite firstn_length, seg_length. unfold len in Hf. lia. }
    rewrite store_wr by (rewrite Lf; unfold len in Hf; lia). rewrite Lf. reflexivity.
Qed.

Lemma run_op_seen b s n o limit : SI b s n -> 0 <= n <= limit ->
  (b = Checked -> limit = 2 ^ 38) -> (b = Unchecked -> n + op_size o <= limit) ->
  exists s', u_run_op b s o = (fst (expect_seen ksw limit n o), s') /\ SI b s' (snd (expect_seen ksw limit n o)).
Proof.
  intros HS Hn0 Hc Hu. destruct o as [|i out|i out].
  - cbn [u_run_op expect_seen op_size] in *. destruct (Z.ltb_spec n limit) as [Hl|Hl].
    + destruct (next_ok key nonce Hk Hn Bk Bn b s n HS) as (s1 & E1 & S1).
      { destruct b; [right; rewrite <- (Hc eq_refl); lia|auto]. }
      rewrite (next_run b s [] _ _ E1). exists s1. split; [reflexivity|exact S1].
    + destruct b; [|specialize (Hu eq_refl); lia]. rewrite (next_exhausted s n [] HS) by (rewrite <- (Hc eq_refl); lia).
      exists s. split; [reflexivity|exact HS].
  - destruct (process_seen b s n i out limit HS Hn0 Hc Hu) as (s' & E & P & S'). exists s'. split; [|exact S'].
    cbn [u_run_op]. cbv zeta. rewrite P. f_equal. rewrite E. reflexivity.
  - destruct (process_seen b s n i out limit HS Hn0 Hc Hu) as (s' & E & P & S'). exists s'. split; [|exact S'].
    cbn [u_run_op]. cbv zeta. rewrite P. f_equal. rewrite E. reflexivity.
Qed.

Lemma expect_seen_pos f limit n o : 0 <= n <= limit ->
  n <= snd (expect_seen f limit n o) <= limit /\ snd (expect_seen f limit n o) <= n + op_size o.
Proof.
  intros H. pose proof (op_size_nonneg key nonce Hk Hn o). destruct o as [|i out|i out]; cbn [expect_seen op_size] in *.
  - destruct (Z.ltb_spec n limit); cbn [snd]; lia.
  - destruct (negb _); cbn [snd]; [lia|]. destruct (Z.leb_spec (n + len i) limit); cbn [snd]; lia.
  - destruct (negb _); cbn [snd]; [lia|]. destruct (Z.leb_spec (n + len i) limit); cbn [snd]; lia.
Qed.

Lemma run_ops_seen b ops limit : forall s n, SI b s n -> 0 <= n <= limit ->
  (b = Checked -> limit = 2 ^ 38) -> (b = Unchecked -> n + ops_size ops <= limit) ->
  u_run_ops b s ops = expect_seens ksw limit n ops.
Proof.
  induction ops as [|o ops IH]; intros s n HS Hn0 Hc Hu; [reflexivity|].
  cbn [u_run_ops expect_seens ops_size] in *. pose proof (ops_size_nonneg key nonce Hk Hn ops).
  destruct (run_op_seen b s n o limit HS Hn0 Hc) as (s' & E & S').
  { intros Hb. specialize (Hu Hb). lia. }
  pose proof (expect_seen_pos ksw limit n o Hn0) as [P1 P2].
  rewrite E. destruct (expect_seen ksw limit n o) as [x n'] eqn:Ex. cbn [fst snd] in *. f_equal.
  apply IH; [exact S'|lia|exact Hc|]. intros Hb. specialize (Hu Hb). lia.
Qed.

Lemma seg_ext f g input : forall m n, (forall k, n <= k < n + Z.of_nat m -> f k = g k) ->
  firstn m (seg f n input) = firstn m (seg g n input).
Proof.
  induction input as [|z input IH]; intros [|m] n H; try reflexivity. rewrite !seg_cons. cbn [firstn]. f_equal.
  - f_equal. apply H. lia.
  - apply IH. intros k Hk2. apply H. lia.
Qed.
Lemma expect_seen_ext f g limit n o : 0 <= n <= limit -> (forall k, 0 <= k < limit -> f k = g k) ->
  expect_seen f limit n o = expect_seen g limit n o.
Proof.
  intros Hn0 H.
  assert (G : forall i out, expect_seen f limit n (OpEncrypt i out) = expect_seen g limit n (OpEncrypt i out)).
  { intros i out. cbn [expect_seen].
    change (xorl i (map (fun j => f (n + Z.of_nat j)) (seq 0 (length i)))) with (seg f n i).
    change (xorl i (map (fun j => g (n + Z.of_nat j)) (seq 0 (length i)))) with (seg g n i).
    destruct (negb _); [reflexivity|]. destruct (Z.leb_spec (n + len i) limit) as [Hl|Hl].
    - do 3 f_equal. rewrite <- (firstn_all (seg f n i)), <- (firstn_all (seg g n i)), !seg_length.
      apply seg_ext. intros k Hk2. apply H. unfold len in Hl. lia.
    - do 3 f_equal. apply seg_ext. intros k Hk2. apply H. lia. }
  destruct o as [|i out|i out]; [|exact (G i out)|exact (G i out)].
  cbn [expect_seen]. destruct (Z.ltb_spec n limit); [|reflexivity]. rewrite H by lia. reflexivity.
Qed.
Lemma expect_seens_ext f g limit ops : (forall k, 0 <= k < limit -> f k = g k) -> forall n, 0 <= n <= limit ->
  expect_seens f limit n ops = expect_seens g limit n ops.
Proof.
  intros H. induction ops as [|o ops IH]; intros n Hn0; [reflexivity|]. cbn [expect_seens].
  rewrite (expect_seen_ext f g) by assumption. pose proof (expect_seen_pos g limit n o Hn0) as [P _].
  destruct (expect_seen g limit n o) as [x n']. cbn [snd] in P. f_equal. apply IH. lia.
Qed.

Lemma stream_seen_checked ops : exists s0, stream_new key nonce = Ok s0 /\
  u_run_ops Checked s0 ops = expect_seens (keystream_byte key nonce) (2 ^ 38) 0 ops.
Proof.
  destruct (stream_new_ok key nonce Hk Hn Bk Bn Checked) as (s & E & S0). exists s. split; [exact E|].
  rewrite (run_ops_seen Checked ops (2 ^ 38) s 0 S0) by (try lia; discriminate).
  apply expect_seens_ext; [|lia]. intros k Hk2. unfold ksw, ks_wrap. rewrite Z.mod_small by lia. reflexivity.
Qed.
Lemma stream_seen_unchecked ops limit : ops_size ops <= limit -> exists s0, stream_new key nonce = Ok s0 /\
  u_run_ops Unchecked s0 ops = expect_seens (fun n => keystream_byte key nonce (n mod 2 ^ 38)) limit 0 ops.
Proof.
  intros Hl. destruct (stream_new_ok key nonce Hk Hn Bk Bn Unchecked) as (s & E & S0). exists s. split; [exact E|].
  pose proof (ops_size_nonneg key nonce Hk Hn ops).
  apply (run_ops_seen Unchecked ops limit s 0 S0); [lia|discriminate|lia].
Qed.
End S.
