(** Proofs about hash functions after caught panics. *)
From Verif Require Import BaseFacts M_Util M_Sha2 M_Hmac M_Unwind M_UnwindHash S_Sha2 Hist HistUnwindHash P_Sha2 P_Sha2Stream.
From Coq Require Import ZifyBool ZifyNat.

(** A run agrees with a result. *)
Definition sim (r : run processor unit) (x : res processor) : Prop :=
  match x with Ok q => outcome r = Ok tt /\ self_after r = q | Panic => outcome r = Panic end.
Lemma sim_get (k : processor -> U processor unit) s o x : sim (k s s o) x -> sim (bindU get_self k s o) x.
Proof. unfold sim, bindU. cbn. destruct x; auto. Qed.
Lemma sim_set (k : unit -> U processor unit) s s' o x : sim (k tt s' o) x -> sim (bindU (set_self s') k s o) x.
Proof. unfold sim, bindU. cbn. destruct x; auto. Qed.
Lemma sim_lift {A} (r : res A) (k : A -> U processor unit) s o f :
  (forall a, r = Ok a -> sim (k a s o) (f a)) -> sim (bindU (lift r) k s o) (bind r f).
Proof.
  intros Hk. destruct r as [a|]; cbn [bind].
  - specialize (Hk a eq_refl). unfold sim, bindU in *. cbn. destruct (f a); auto.
  - reflexivity.
Qed.

Lemma loop_sim P cs : forall p o, sim (u_update_loop P cs p o) (update_loop P cs p).
Proof.
  induction cs as [|c cs IH]; intros p o; cbn [u_update_loop update_loop].
  - split; reflexivity.
  - apply sim_get. destruct (length c <? length (p_buffer p))%nat.
    + apply sim_lift. intros buf _. apply sim_set, sim_get, sim_set. apply IH.
    + apply sim_set. apply IH.
Qed.

Lemma update_sim P b input p o : sim (u_update P b input p o) (proc_update P b p input).
Proof.
  unfold u_update, proc_update. apply sim_get, sim_lift. intros l _. apply sim_set, sim_get, sim_lift. intros u _.
  cbn [set_len p_state p_buffer p_offset p_len].
  destruct (0 <? p_offset p)%nat; [|apply loop_sim].
  destruct (length input <? length (p_buffer p) - p_offset p)%nat; apply sim_lift; intros buf _; apply sim_set, sim_get.
  - split; reflexivity.
  - apply sim_set, sim_get, sim_set, sim_get. apply loop_sim.
Qed.

Lemma self_get {B} (k : processor -> U processor B) s o : self_after (bindU get_self k s o) = self_after (k s s o).
Proof. unfold bindU. cbn. destruct (outcome (k s s o)); reflexivity. Qed.
Lemma self_panic {A B} (k : A -> U processor B) s o : self_after (bindU (lift Panic) k s o) = s.
Proof. reflexivity. Qed.
Lemma update_panic P b input p o : uchk b 64 (p_len p + len input) = Panic -> self_after (u_update P b input p o) = p.
Proof. intros E. unfold u_update. rewrite self_get, E. apply self_panic. Qed.

Lemma sim_ok r q : sim r (Ok q) -> outcome r = Ok tt /\ self_after r = q.
Proof. exact (fun h => h). Qed.
Lemma sim_p r : sim r Panic -> outcome r = Panic.
Proof. exact (fun h => h). Qed.

Section H.
Variables (P : sha_params) (A : algorithm) (V : variant).
Hypothesis M : matches P A V.

Lemma updates_repr b inputs : forall s msg, repr V s msg -> Forall bytes inputs -> (b = Checked -> len msg < 2 ^ 64) ->
  exists v m q, absorb b (len msg) inputs = (v, m) /\ u_updates P b s inputs = (v, q) /\ repr V q (msg ++ m) /\
    bytes m /\ (b = Checked -> len msg + len m < 2 ^ 64).
Proof.
  induction inputs as [|i l IH]; intros s msg Hs Hb Hl; cbn [absorb u_updates].
  - exists [], [], s. rewrite app_nil_r, len_nil. repeat split; auto; [constructor|]. intros E. specialize (Hl E). lia.
  - inversion_clear Hb as [|? ? Hi Hb'].
    assert (OKcase : b = Unchecked \/ len msg + len i < 2 ^ 64 ->
      exists v m q, (let (v, m) := absorb b (len msg + len i) l in (false :: v, i ++ m)) = (v, m) /\
       (let (v, q) := u_updates P b (self_after (u_update P b i s [])) l in
        ((match outcome (u_update P b i s []) with Ok _ => false | Panic => true end) :: v, q)) = (v, q) /\
       repr V q (msg ++ m) /\ bytes m /\ (b = Checked -> len msg + len m < 2 ^ 64)).
    { intros Hc. destruct (repr_update P A V M b s msg i Hs Hi Hc) as (s' & E & Hs').
      pose proof (update_sim P b i s []) as HS. change (proc_update P b s i = Ok s') in E. rewrite E in HS.
      apply sim_ok in HS as [HO HA]. rewrite HO, HA.
      destruct (IH s' (msg ++ i) Hs' Hb') as (v & m & q & E1 & E2 & Hr & Bm & Hm).
      { intros Eb. rewrite len_app. destruct Hc as [Hc|Hc]; [rewrite Eb in Hc; discriminate Hc|exact Hc]. }
      rewrite len_app in E1. exists (false :: v), (i ++ m), q. rewrite E1, E2.
      split; [reflexivity|]. split; [reflexivity|]. split; [rewrite app_assoc; exact Hr|].
      split; [apply bytes_app; split; assumption|]. intros Eb. specialize (Hm Eb). rewrite len_app in Hm. rewrite len_app. lia. }
    destruct b; [|apply OKcase; auto].
    destruct (Z.ltb_spec (len msg + len i) (2 ^ 64)) as [Hlt|Hge]; [apply OKcase; auto|].
    specialize (Hl eq_refl). pose proof (len_nonneg msg) as Nm.
    assert (EP : uchk Checked 64 (p_len s + len i) = Panic).
    { destruct Hs as (full & rest & _ & _ & Hp). rewrite Hp, Z.mod_small by lia. unfold uchk.
      rewrite (proj2 (Z.ltb_ge _ _)); [|exact Hge]. rewrite Bool.andb_false_r. reflexivity. }
    pose proof (update_panic P Checked i s [] EP) as HA. pose proof (update_sim P Checked i s []) as HS.
    assert (EU : proc_update P Checked s i = Panic) by (unfold proc_update; rewrite EP; reflexivity).
    rewrite EU in HS. apply sim_p in HS. rewrite HS, HA.
    destruct (IH s msg Hs Hb' (fun _ => Hl)) as (v & m & q & E1 & E2 & Hr & Bm & Hm). rewrite E1, E2.
    exists (true :: v), m, q. auto.
Qed.

Lemma hash_history b inputs : Forall bytes inputs ->
  exists v m q, absorb b 0 inputs = (v, m) /\ u_updates P b (proc_new P A) inputs = (v, q) /\ repr V q m /\
    bytes m /\ (b = Checked -> len m < 2 ^ 64).
Proof.
  intros Hb. destruct (updates_repr b inputs (proc_new P A) [] (repr_default P A V M) Hb) as (v & m & q & E1 & E2 & Hr & Bm & Hm).
  { intros _. rewrite len_nil. lia. }
  exists v, m, q. rewrite len_nil in *. repeat split; auto. 
Qed.
End H.

(** Real slices are shorter than 2^63: a call that panics finds at least 2^63 bytes absorbed. *)
Lemma absorb_sticky b inputs : forall total v m, Forall (fun i => len i < 2 ^ 63) inputs ->
  absorb b total inputs = (v, m) -> In true v -> 2 ^ 63 < total + len m.
Proof.
  induction inputs as [|i l IH]; intros total v m Hs E Hin; cbn [absorb] in E.
  - injection E as <- <-. destruct Hin.
  - inversion_clear Hs as [|? ? Hi Hs'].
    assert (Step : forall w k, absorb b (total + len i) l = (w, k) -> (false :: w, i ++ k) = (v, m) -> 2 ^ 63 < total + len m).
    { intros w k Ew Em. injection Em as <- <-. destruct Hin as [Hin|Hin]; [discriminate Hin|].
      specialize (IH _ _ _ Hs' Ew Hin). rewrite len_app. lia. }
    destruct b.
    + destruct (Z.ltb_spec (total + len i) (2 ^ 64)) as [Hlt|Hge].
      * destruct (absorb Checked (total + len i) l) as [w k] eqn:Ew. exact (Step w k eq_refl E).
      * destruct (absorb Checked total l) as [w k] eqn:Ew. injection E as <- <-. pose proof (len_nonneg k). lia.
    + destruct (absorb Unchecked (total + len i) l) as [w k] eqn:Ew. exact (Step w k eq_refl E).
Qed.
Lemma absorb_all b inputs : forall total v m, absorb b total inputs = (v, m) -> ~ In true v -> m = concat inputs.
Proof.
  induction inputs as [|i l IH]; intros total v m E Hin; cbn [absorb concat] in *.
  - injection E as <- <-. reflexivity.
  - assert (Step : forall w k, absorb b (total + len i) l = (w, k) -> (false :: w, i ++ k) = (v, m) -> m = i ++ concat l).
    { intros w k Ew Em. injection Em as <- <-. f_equal. apply (IH _ _ _ Ew). intros C. apply Hin. now right. }
    destruct b.
    + destruct (total + len i <? 2 ^ 64).
      * destruct (absorb Checked (total + len i) l) as [w k] eqn:Ew. exact (Step w k eq_refl E).
      * destruct (absorb Checked total l) as [w k]. injection E as <- <-. exfalso. apply Hin. now left.
    + destruct (absorb Unchecked (total + len i) l) as [w k] eqn:Ew. exact (Step w k eq_refl E).
Qed.
Lemma absorb_unchecked inputs : forall total v m, absorb Unchecked total inputs = (v, m) -> v = map (fun _ => false) inputs /\ m = concat inputs.
Proof.
  induction inputs as [|i l IH]; intros total v m E; cbn [absorb concat map] in *.
  - injection E as <- <-. auto.
  - destruct (absorb Unchecked (total + len i) l) as [w k] eqn:Ew. destruct (IH _ _ _ Ew) as [-> ->]. injection E as <- <-. auto.
Qed.

Lemma contract_repr P A V : matches P A V -> hash_contract (impl_function P A) V (repr V).
Proof.
  intros M. constructor.
  - apply (m_ds _ _ _ M).
  - apply (m_bs _ _ _ M).
  - pose proof (m_ds8 _ _ _ M). pose proof (m_dsle _ _ _ M). lia.
  - pose proof (m_ds8 _ _ _ M). unfold block_bytes. lia.
  - apply (bb_pos P A V M).
  - apply repr_default; assumption.
  - intros. apply repr_update with (A := A); assumption.
  - intros. eapply repr_update_panic; eassumption.
  - intros. apply repr_write; assumption.
  - intros. eapply repr_write_panic; eassumption.
  - intros. apply repr_updates with (A := A); assumption.
  - intros. apply (SHA_length P A); assumption.
Qed.

From Verif Require Import S_Hmac P_Hmac.
Section Hm.
Variables (P : sha_params) (A : algorithm) (V : variant).
Hypothesis M : matches P A V.
Local Notation H := (impl_function P A).
Let C := contract_repr P A V M.

Lemma hmac_history_unwind b key inputs : bytes key -> len key < 2 ^ 61 -> Forall bytes inputs ->
  exists h, hmac_new H b key = Ok h /\
  exists v m h', absorb b (Z.of_nat (block_bytes V)) inputs = (v, m) /\ u_hmac_updates P A b h inputs = (v, h') /\
    hmac_repr H V (repr V) h' key m /\ bytes m /\ (b = Checked -> Z.of_nat (block_bytes V) + len m < 2 ^ 64).
Proof.
  intros Hk Hkl Hb. destruct (hmac_new_repr H V (repr V) C b key Hk Hkl) as (h & E & Hi & Ho).
  exists h. split; [exact E|].
  assert (HL : len (xorl (hmac_key (SHA V) (block_bytes V) key) (ipad (block_bytes V))) = Z.of_nat (block_bytes V)).
  { unfold ipad. apply (xpad_len H V (repr V) C key 0x36); assumption. }
  rewrite app_nil_r in Hi. pose proof (hc_block _ _ _ C) as HB.
  destruct (updates_repr P A V M b inputs _ _ Hi Hb) as (v & m & q & E1 & E2 & Hr & Bm & Hm).
  { intros _. rewrite HL. lia. }
  rewrite HL in E1, Hm. exists v, m. unfold u_hmac_updates. rewrite E2. eexists. repeat split; auto.
Qed.

Lemma hmac_tag_panic h key m : bytes key -> len key < 2 ^ 61 -> hmac_repr H V (repr V) h key m ->
  2 ^ 61 <= Z.of_nat (block_bytes V) + len m < 2 ^ 64 -> hmac_tag H Checked h = Panic.
Proof.
  intros Hk Hkl [Hi Ho] Hl. unfold hmac_tag.
  destruct (slice (repeat 0 MAX_DIGEST_SIZE) 0 (DIGEST_SIZE H)) as [out|]; cbn [bind]; [|reflexivity].
  unfold write_tag. destruct (assertb (DIGEST_SIZE H =? length out)%nat) as [u|]; cbn [bind]; [|reflexivity].
  rewrite (hc_write_panic _ _ _ C _ _ out Hi); [reflexivity|].
  rewrite len_app. unfold ipad. rewrite (xpad_len H V (repr V) C key 0x36) by assumption. exact Hl.
Qed.
End Hm.
