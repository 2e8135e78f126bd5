(** Panics that are caught and calls stopped half way: ChaCha20-Poly1305 and GCM. *)
From Verif Require Import BaseFacts M_Util M_ChaCha20 M_Poly1305 M_Aes M_Ghash M_Gcm M_Unwind HistUnwind.
From Verif Require Import S_ChaCha S_Gcm P_Util P_ChaCha P_Ctr P_Ccp P_Gcm P_Unwind P_Unwind2.
From Coq Require Import ZifyBool ZifyNat.

Lemma moment_end {S A} (m : U S A) s o : honest m -> moment (m s o) o (out_after (m s o)).
Proof. intros H. exists (length (writes (m s o))). rewrite firstn_all. apply H. Qed.
Lemma store_prefix out c k : length c = length out ->
  store out (wr 0 (firstn k c)) = firstn k c ++ skipn k out.
Proof.
  intros H. rewrite store_wr by (rewrite firstn_length; lia). cbn [firstn app]. rewrite firstn_length, Nat.add_0_l.
  destruct (Nat.le_gt_cases k (length c)).
  - now rewrite Nat.min_l by assumption.
  - rewrite Nat.min_r by lia. rewrite !skipn_all2 by lia. reflexivity.
Qed.
Lemma moment_prefix {S A} (r : run S A) out c m : writes r = wr 0 (firstn m c) -> length c = length out ->
  forall buf, moment r out buf <-> exists k, (k <= m)%nat /\ buf = firstn k c ++ skipn k out.
Proof.
  intros W L buf. unfold moment. rewrite W. split.
  - intros [k ->]. exists (Nat.min k m). split; [lia|]. rewrite wr_firstn, firstn_firstn. now apply store_prefix.
  - intros (k & Hk & ->). exists k. rewrite wr_firstn, firstn_firstn, Nat.min_l by assumption. symmetry. now apply store_prefix.
Qed.
Lemma moment_wr {S A} (r : run S A) out c : writes r = wr 0 c -> length c = length out ->
  forall buf, moment r out buf -> exists k, buf = firstn k c ++ skipn k out.
Proof.
  intros W L buf M. rewrite <- (firstn_all c) in W. apply (proj1 (moment_prefix r out c _ W L buf)) in M.
  destruct M as (k & _ & M). eauto.
Qed.
Lemma moment_none {S A} (r : run S A) out : writes r = [] -> forall buf, moment r out buf <-> buf = out.
Proof.
  intros W buf. unfold moment. rewrite W. split; [intros [k ->]|intros ->; exists 0%nat]; [|reflexivity].
  now rewrite firstn_nil.
Qed.
Lemma writes_tail {A B} (m : U unit A) (k : A -> U unit B) s o :
  (forall a s o, writes (k a s o) = []) -> writes (bindU m k s o) = writes (m s o).
Proof.
  intros H. unfold bindU. destruct (outcome (m s o)); cbn [writes]; [|reflexivity]. rewrite H. apply app_nil_r.
Qed.

Lemma u_ctr_ext b f g : (forall c, w32 c -> f c = g c) -> forall ins outs i off s o, w32 i ->
  u_ctr_loop b f i off ins outs s o = u_ctr_loop b g i off ins outs s o.
Proof.
  intros H. induction ins as [|c ins IH]; intros [|n outs] i off s o Hi; cbn [u_ctr_loop]; try reflexivity.
  rewrite !bindU_lift. destruct (uchk b 32 (i + 1)) as [i'|] eqn:E; [|reflexivity].
  assert (Hi' : w32 i').
  { unfold uchk in E. destruct ((0 <=? i + 1) && (i + 1 <? 2 ^ 32)) eqn:C.
    - injection E as <-. unfold w32. lia.
    - destruct b; [discriminate|]. injection E as <-. unfold w32. apply Z.mod_pos_bound. lia. }
  rewrite (H i Hi). unfold bindU. destruct (outcome _); [|reflexivity]. rewrite IH by exact Hi'. reflexivity.
Qed.

Definition ccp_room (b : build) (m : list Z) : nat :=
  match b with Checked => Z.to_nat (2 ^ 38 - 128) | Unchecked => length m end.
Definition gcm_room (b : build) (m : list Z) : nat :=
  match b with Checked => Z.to_nat (2 ^ 36 - 48) | Unchecked => length m end.

Section Ccp.
Variables key nonce : list Z.
Hypothesis Hk : length key = 32%nat.
Hypothesis Hn : length nonce = 12%nat.
Hypothesis Bk : bytes key.
Hypothesis Bn : bytes nonce.

Lemma ccp_process_writes b m out : length m = length out ->
  writes (u_aead_process b (chacha_words key nonce) m tt out) = wr 0 (firstn (ccp_room b m) (crypt key nonce m)).
Proof.
  intros L. unfold u_aead_process. rewrite bindU_get_out.
  rewrite (u_ctr_ext b _ (blkf key nonce)) by (try (unfold w32; lia); intros; apply block_eq; assumption).
  rewrite (ctr_writes 64) by (try lia; intros; apply block_length).
  unfold room, ccp_room. replace (64 * Z.to_nat (2 ^ 32 - 1 - 1))%nat with (Z.to_nat (2 ^ 38 - 128)) by lia.
  reflexivity.
Qed.
Lemma ccp_encrypt_writes b m data out : length m = length out ->
  writes (u_ccp_encrypt b key m nonce data tt out) = wr 0 (firstn (ccp_room b m) (crypt key nonce m)).
Proof.
  intros L. unfold u_ccp_encrypt. rewrite bindU_get_out, bindU_lift.
  rewrite (proj2 (Nat.eqb_eq _ _)) by assumption. cbn [assertb]. rewrite bindU_lift, cipher_ok by assumption.
  rewrite writes_tail; [now apply ccp_process_writes|]. intros a s o. rewrite bindU_get_out. reflexivity.
Qed.
Lemma ccp_decrypt_writes b ct data tag out : length ct = length out ->
  writes (u_ccp_decrypt b key ct nonce data tag tt out) =
    match aead_tag b (chacha_words key nonce) ct data with
    | Ok t => match verify_16 t tag with
              | Ok true => wr 0 (firstn (ccp_room b ct) (crypt key nonce ct)) | _ => [] end
    | Panic => [] end.
Proof.
  intros L. unfold u_ccp_decrypt. rewrite bindU_get_out, bindU_lift.
  rewrite (proj2 (Nat.eqb_eq _ _)) by congruence. cbn [assertb]. rewrite bindU_lift, cipher_ok by assumption.
  rewrite bindU_lift. destruct (aead_tag _ _ _ _) as [t|]; [|reflexivity].
  rewrite bindU_lift. destruct (verify_16 t tag) as [[|]|]; [|reflexivity|reflexivity].
  rewrite writes_tail; [now apply ccp_process_writes|]. reflexivity.
Qed.
End Ccp.

Lemma ccp_encrypt_bad b key m nonce data out : length key = 32%nat -> length m <> length out \/ length nonce <> 12%nat ->
  u_ccp_encrypt b key m nonce data tt out = mkRun [] tt out Panic.
Proof.
  intros Hk H. unfold u_ccp_encrypt. rewrite bindU_get_out, bindU_lift.
  destruct (Nat.eqb_spec (length m) (length out)); cbn [assertb]; [|reflexivity].
  rewrite bindU_lift, chacha_new_eq, Hk. destruct (Nat.eqb_spec (length nonce) 12); [lia|reflexivity].
Qed.
Lemma ccp_decrypt_bad b key m nonce data tag out : length key = 32%nat -> length m <> length out \/ length nonce <> 12%nat ->
  u_ccp_decrypt b key m nonce data tag tt out = mkRun [] tt out Panic.
Proof.
  intros Hk H. unfold u_ccp_decrypt. rewrite bindU_get_out, bindU_lift.
  destruct (Nat.eqb_spec (length out) (length m)); cbn [assertb]; [|reflexivity].
  rewrite bindU_lift, chacha_new_eq, Hk. destruct (Nat.eqb_spec (length nonce) 12); [lia|reflexivity].
Qed.

Lemma verify_true t tag : verify_16 t tag = Ok true -> t = tag.
Proof. intros H. destruct (verify_16_spec t tag) as (v & E & Hv). rewrite E in H. injection H as ->. now apply Hv. Qed.
Lemma ok_inj {A} (a a' : A) : Ok a = Ok a' -> a = a'.
Proof. intros H. now injection H. Qed.

Lemma ccp_decrypt_moment b key ct nonce data tag out buf :
  length key = 32%nat -> bytes key -> bytes nonce -> bytes ct -> bytes data -> len data < 2 ^ 64 -> len ct < 2 ^ 64 ->
  moment (u_ccp_decrypt b key ct nonce data tag tt out) out buf ->
  buf = out \/
  exists msg k, (forall out', length out' = length msg -> ccp_encrypt Unchecked key msg nonce data out' = Ok (ct, tag)) /\
    length msg = length out /\ buf = firstn k msg ++ skipn k out.
Proof.
  intros Hk Bk Bn Bc Bd Ld Lc M.
  destruct (Nat.eq_dec (length ct) (length out)) as [L|L].
  2:{ rewrite ccp_decrypt_bad in M by auto. left. revert M. now apply moment_none. }
  destruct (Nat.eq_dec (length nonce) 12) as [Hn|Hn].
  2:{ rewrite ccp_decrypt_bad in M by auto. left. revert M. now apply moment_none. }
  pose proof (ccp_decrypt_writes key nonce Hk Hn Bk Bn b ct data tag out L) as W.
  destruct (tag_ok key nonce Hk Hn Bk Bn data ct Bd Bc Ld Lc) as (t & Et & _). rewrite (Et b) in W.
  destruct (verify_16 t tag) as [[|]|] eqn:Ev.
  - right. apply verify_true in Ev. subst tag. exists (crypt key nonce ct).
    apply (proj1 (moment_prefix _ out (crypt key nonce ct) _ W ltac:(rewrite crypt_length; assumption) buf)) in M. destruct M as (k & _ & ->).
    exists k. split; [|split; [rewrite crypt_length; assumption|reflexivity]]. rewrite crypt_length.
    intros out' Lo. unfold ccp_encrypt. rewrite crypt_length, (proj2 (Nat.eqb_eq _ _)) by congruence. cbn [assertb bind].
    rewrite cipher_ok by assumption. cbn [bind].
    rewrite (process_ok key nonce Hk Hn Bk Bn Unchecked) by (auto; rewrite crypt_length; congruence). cbn [bind].
    rewrite crypt_crypt, (Et Unchecked). reflexivity.
  - left. revert M. now apply moment_none.
  - left. revert M. now apply moment_none.
Qed.

Lemma ccp_encrypt_moment b key msg nonce data out :
  length key = 32%nat -> bytes key -> bytes nonce -> bytes msg -> bytes data -> len data < 2 ^ 64 -> len msg < 2 ^ 64 ->
  let r := u_ccp_encrypt b key msg nonce data tt out in
  (ccp_encrypt Unchecked key msg nonce data out = Panic -> forall buf, moment r out buf -> buf = out) /\
  (forall c t, ccp_encrypt Unchecked key msg nonce data out = Ok (c, t) -> length c = length out /\
     (forall buf, moment r out buf <-> exists k, (k <= ccp_room b msg)%nat /\ buf = firstn k c ++ skipn k out) /\
     (b = Checked -> 2 ^ 38 - 192 < len msg -> outcome r = Panic /\
        out_after r = firstn (Z.to_nat (2 ^ 38 - 128)) c ++ skipn (Z.to_nat (2 ^ 38 - 128)) out)).
Proof.
  intros Hk Bk Bn Bm Bd Ld Lm. cbv zeta.
  destruct (Nat.eq_dec (length msg) (length out)) as [L|L]; [destruct (Nat.eq_dec (length nonce) 12) as [Hn|Hn]|].
  2,3: rewrite encrypt_bad_args, ccp_encrypt_bad by auto; split; [|discriminate];
    intros H buf M; revert M; now apply moment_none.
  pose proof (ccp_encrypt_writes key nonce Hk Hn Bk Bn b msg data out L) as W.
  destruct (encrypt_ok key nonce Hk Hn Bk Bn msg data Bm Bd Ld Lm) as (t0 & _ & _ & _ & _ & E).
  rewrite E by auto. split; [discriminate|]. intros c t H. apply ok_inj in H.
  assert (Hc : c = crypt key nonce msg) by congruence. clear H. subst c.
  split; [now rewrite crypt_length|]. split.
    + apply moment_prefix; [exact W|]. now rewrite crypt_length.
    + intros -> Hbig. split.
      * pose proof (sim_ccp_encrypt Checked key msg nonce data out) as S. cbv zeta in S.
        rewrite encrypt_panic in S by (try assumption; auto; congruence).
        destruct (outcome _); [discriminate|reflexivity].
      * rewrite (proj1 (honest_ccp_encrypt Checked key msg nonce data tt out)), W. apply store_prefix. now rewrite crypt_length.
Qed.

Section Gcm.
Variable E : BlockCipher.
Variable k : bc_state E.
Hypothesis HE : forall x, is_block x -> is_block (bc_permute E k x).

Lemma check_bounds_eq m c nonce data : check_bounds m c nonce data = Ok tt \/ check_bounds m c nonce data = Panic.
Proof. destruct (check_bounds m c nonce data) as [[]|]; auto. Qed.
Lemma bounds_inv m c nonce data : check_bounds m c nonce data = Ok tt ->
  length m = length c /\ length nonce = 12%nat /\ len m < 2 ^ 36 - 32 /\ len data < 2 ^ 61.
Proof.
  intros H. destruct (Nat.eq_dec (length m) (length c)) as [H1|H1];
    [destruct (Nat.eq_dec (length nonce) 12) as [H2|H2];
      [destruct (Z.lt_ge_cases (len m) (2 ^ 36 - 32)) as [H3|H3];
        [destruct (Z.lt_ge_cases (len data) (2 ^ 61)) as [H4|H4]; [auto|]|]|]|];
  exfalso.
  all: assert (B : length m <> length c \/ length nonce <> 12%nat \/ 2 ^ 36 - 32 <= len m \/ 2 ^ 61 <= len data) by auto.
  all: clear - H B; unfold check_bounds in H.
  all: unfold assertb in H; repeat (match type of H with context [if ?x then _ else _] => destruct x eqn:? end; cbn [bind] in H; try discriminate).
  all: unfold len in *; lia.
Qed.

Section N.
Variable nonce : list Z.
Hypothesis Hn : length nonce = 12%nat.
Hypothesis Bn : bytes nonce.
Lemma gcm_process_writes b m out : length m = length out ->
  writes (u_gcm_process E b k (nonce ++ repeat 0 4) m tt out) = wr 0 (firstn (gcm_room b m) (gcrypt E k nonce m)).
Proof.
  intros L. unfold u_gcm_process. rewrite bindU_get_out.
  rewrite (u_ctr_ext b _ (cblk E k nonce)) by (try (unfold w32; lia); intros; apply gcm_block_eq; assumption).
  rewrite (ctr_writes 16) by (try lia; intros; apply cblk_block; assumption).
  unfold room, gcm_room. replace (16 * Z.to_nat (2 ^ 32 - 1 - 2))%nat with (Z.to_nat (2 ^ 36 - 48)) by lia.
  reflexivity.
Qed.
End N.

Lemma gcm_encrypt_writes b m nonce data out : bytes nonce ->
  writes (u_gcm_encrypt E b k m nonce data tt out) =
    match check_bounds m out nonce data with
    | Ok _ => wr 0 (firstn (gcm_room b m) (gcrypt E k nonce m)) | Panic => [] end.
Proof.
  intros Bn. unfold u_gcm_encrypt. rewrite bindU_get_out, bindU_lift.
  destruct (check_bounds m out nonce data) as [[]|] eqn:Ec; [|reflexivity].
  destruct (bounds_inv _ _ _ _ Ec) as (L & Hn & _ & _). rewrite bindU_lift, (counter_ok E k nonce Hn).
  rewrite writes_tail; [now apply gcm_process_writes|]. intros a s o. rewrite bindU_get_out. reflexivity.
Qed.

Lemma gcm_decrypt_moment b ct nonce data tag out buf : bytes nonce -> bytes ct -> bytes data ->
  moment (u_gcm_decrypt E b k ct nonce data tag tt out) out buf ->
  buf = out \/
  exists msg n, (forall out', length out' = length msg -> gcm_encrypt E Unchecked k msg nonce data out' = Ok (ct, tag)) /\
    length msg = length out /\ buf = firstn n msg ++ skipn n out.
Proof.
  intros Bn Bc Bd M. pose proof (eq_refl (writes (u_gcm_decrypt E b k ct nonce data tag tt out))) as W.
  unfold u_gcm_decrypt in W at 2. rewrite bindU_get_out, bindU_lift in W.
  destruct (check_bounds out ct nonce data) as [[]|] eqn:Ec; [|left; revert M; now apply moment_none].
  destruct (bounds_inv _ _ _ _ Ec) as (L & Hn & Lo & Ld).
  assert (Lc : len ct < 2 ^ 36 - 32) by (unfold len in *; lia).
  rewrite bindU_lift, (counter_ok E k nonce Hn), bindU_lift, (gcm_tag_ok E k HE nonce Hn) in W by (try assumption; lia).
  rewrite bindU_lift in W. destruct (verify_16 _ tag) as [[|]|] eqn:Ev in W.
  - right. apply verify_true in Ev. exists (gcrypt E k nonce ct).
    rewrite writes_tail, gcm_process_writes in W by (try assumption; congruence || reflexivity).
    apply (proj1 (moment_prefix _ out (gcrypt E k nonce ct) _ W ltac:(rewrite gcrypt_length by assumption; congruence) buf)) in M.
    destruct M as (n & _ & ->). exists n. rewrite gcrypt_length by assumption. split; [|split; congruence].
    intros out' Lo'. rewrite gcrypt_spec by assumption.
    rewrite (gcm_encrypt_ok E k HE nonce Hn Bn); auto.
    + rewrite (gcm_ct_ct E k HE nonce Hn Bn), Ev. reflexivity.
    + now apply (gcm_ct_bytes E k HE nonce Hn Bn).
    + now rewrite (gcm_ct_length E k HE nonce Hn Bn).
    + unfold len in *. now rewrite (gcm_ct_length E k HE nonce Hn Bn).
  - left; revert M; now apply moment_none.
  - left; revert M; now apply moment_none.
Qed.

Lemma gcm_encrypt_moment b msg nonce data out : bytes nonce -> bytes msg -> bytes data ->
  let r := u_gcm_encrypt E b k msg nonce data tt out in
  (gcm_encrypt E Unchecked k msg nonce data out = Panic -> forall buf, moment r out buf -> buf = out) /\
  (forall c t, gcm_encrypt E Unchecked k msg nonce data out = Ok (c, t) ->
     length c = length out /\
     (forall buf, moment r out buf <-> exists n, (n <= gcm_room b msg)%nat /\ buf = firstn n c ++ skipn n out) /\
     (b = Checked -> 2 ^ 36 - 64 < len msg -> outcome r = Panic /\
        out_after r = firstn (Z.to_nat (2 ^ 36 - 48)) c ++ skipn (Z.to_nat (2 ^ 36 - 48)) out)).
Proof.
  intros Bn Bm Bd. cbv zeta. pose proof (gcm_encrypt_writes b msg nonce data out Bn) as W. split.
  - intros H' buf M.
    destruct (check_bounds msg out nonce data) as [[]|] eqn:Ec; [|revert M; now apply moment_none].
    destruct (bounds_inv _ _ _ _ Ec) as (L & Hn & Lo & Ld).
    rewrite (gcm_encrypt_ok E k HE nonce Hn Bn) in H' by auto. discriminate.
  - intros c t Ee. destruct (check_bounds msg out nonce data) as [[]|] eqn:Ec.
    2:{ unfold gcm_encrypt in Ee. rewrite Ec in Ee. discriminate. }
    destruct (bounds_inv _ _ _ _ Ec) as (L & Hn & Lo & Ld).
    rewrite (gcm_encrypt_ok E k HE nonce Hn Bn) in Ee by auto. apply ok_inj in Ee.
    assert (Cc : c = gcrypt E k nonce msg) by (rewrite gcrypt_spec by assumption; congruence). clear Ee. subst c.
    assert (Lg : length (gcrypt E k nonce msg) = length out) by (rewrite gcrypt_length by assumption; assumption).
    split; [exact Lg|]. split; [now apply moment_prefix|].
    intros -> Hbig. split.
    + pose proof (sim_gcm_encrypt E Checked k msg nonce data out) as S. cbv zeta in S.
      rewrite (gcm_encrypt_panic E k HE nonce Hn Bn) in S by (auto; unfold GLIM; lia).
      destruct (outcome _); [discriminate|reflexivity].
    + rewrite (proj1 (honest_gcm_encrypt E Checked k msg nonce data tt out)), W. apply store_prefix. exact Lg.
Qed.
End Gcm.
