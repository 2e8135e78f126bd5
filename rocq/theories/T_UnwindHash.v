(** Hash functions and HMAC after caught overflow panics. *)
From Coq Require Import String.
From Verif Require Import Base Hex M_Sha2 M_Hmac M_UnwindHash S_Sha2 S_Hmac Hist HistUnwindHash.
From Verif Require BaseFacts P_Sha2 P_Sha2Stream P_Hmac P_UnwindHash.

(** The four hash types, by the parameters of their implementation. *)
Inductive sha2_impl : sha_params -> algorithm -> variant -> Prop :=
| impl_sha512 : sha2_impl P512 SHA512 spec_sha512
| impl_sha384 : sha2_impl P512 SHA384 spec_sha384
| impl_sha256 : sha2_impl P256 SHA256 spec_sha256
| impl_sha224 : sha2_impl P256 SHA224 spec_sha224.
Lemma impl_matches P A V : sha2_impl P A V -> P_Sha2.matches P A V.
Proof.
  intros []; [apply P_Sha2.matches_sha512|apply P_Sha2.matches_sha384|apply P_Sha2.matches_sha256|apply P_Sha2.matches_sha224].
Qed.

(** ** C87
    [u_updates P b p inputs] (M_UnwindHash.v) is a history of [update] calls on one value, every panic caught: which calls
    panicked, and the value at the end.  [absorb] (HistUnwindHash.v) is the account of it: a call that panics leaves no trace. *)
Theorem C87_update_panics_leave_no_trace : forall P A V, sha2_impl P A V -> forall b inputs out,
  Forall bytes inputs -> length out = digest_size A ->
  let (v, q) := u_updates P b (proc_new P A) inputs in
  let (w, m) := absorb b 0 inputs in
  v = w /\
  hwrite_digest (impl_function P A) b q out =
    (if match b with Checked => len m <? 2 ^ 61 | Unchecked => true end
     then Ok (hash_with V ((8 * len m) mod 2 ^ 64) m) else Panic).
Proof.
  intros P A V HI b inputs out Hb Ho. pose proof (impl_matches P A V HI) as M.
  destruct (P_UnwindHash.hash_history P A V M b inputs Hb) as (v & m & q & E1 & E2 & Hr & Bm & Hm).
  rewrite E1, E2. split; [reflexivity|]. pose proof (P_UnwindHash.contract_repr P A V M) as C.
  assert (OK : b = Unchecked \/ len m < 2 ^ 61 ->
    hwrite_digest (impl_function P A) b q out = Ok (hash_with V ((8 * len m) mod 2 ^ 64) m)).
  { intros Hc. rewrite (P_Sha2Stream.hc_write _ _ _ C b q m out Hr Hc). rewrite Ho.
    change (digest_size A) with (DIGEST_SIZE (impl_function P A)). rewrite (P_Sha2Stream.hc_ds _ _ _ C), Nat.eqb_refl. reflexivity. }
  destruct b; [|apply OK; auto]. specialize (Hm eq_refl).
  destruct (Z.ltb_spec (len m) (2 ^ 61)) as [Hlt|Hge]; [apply OK; auto|].
  apply (P_Sha2Stream.hc_write_panic _ _ _ C q m out Hr). auto.
Qed.
Print Assumptions C87_update_panics_leave_no_trace.

(** No wrong digest: in a checked build, whatever panics are caught on the way, a digest that comes out is the digest of all
    the inputs, and then no call had panicked.  (A Rust slice is shorter than 2^63 bytes.) *)
Theorem C87_no_wrong_digest : forall P A V, sha2_impl P A V -> forall inputs out d,
  Forall bytes inputs -> Forall (fun i => len i < 2 ^ 63) inputs -> length out = digest_size A ->
  let (v, q) := u_updates P Checked (proc_new P A) inputs in
  hwrite_digest (impl_function P A) Checked q out = Ok d ->
  ~ In true v /\ d = SHA V (concat inputs).
Proof.
  intros P A V HI inputs out d Hb Hs Ho. pose proof (C87_update_panics_leave_no_trace P A V HI Checked inputs out Hb Ho) as T.
  destruct (u_updates P Checked (proc_new P A) inputs) as [v q].
  destruct (absorb Checked 0 inputs) as [w m] eqn:E. destruct T as [-> T]. rewrite T.
  destruct (Z.ltb_spec (len m) (2 ^ 61)) as [Hlt|Hge]; intros Ed; [|discriminate Ed].
  assert (N : ~ In true w).
  { intros I. pose proof (P_UnwindHash.absorb_sticky Checked inputs 0 w m Hs E I). lia. }
  split; [exact N|]. rewrite <- (P_UnwindHash.absorb_all Checked inputs 0 w m E N).
  rewrite P_Sha2Stream.SHA_eq in Ed by exact Hlt. injection Ed as <-. reflexivity.
Qed.
Print Assumptions C87_no_wrong_digest.

(** Without overflow checks no call panics, and the result is that of C05. *)
Theorem C87_unchecked_never_panics : forall P A V, sha2_impl P A V -> forall inputs, Forall bytes inputs ->
  fst (u_updates P Unchecked (proc_new P A) inputs) = map (fun _ => false) inputs.
Proof.
  intros P A V HI inputs Hb. destruct (P_UnwindHash.hash_history P A V (impl_matches P A V HI) Unchecked inputs Hb) as (v & m & q & E1 & E2 & _).
  rewrite E2. cbn [fst]. apply (P_UnwindHash.absorb_unchecked inputs 0 v m E1).
Qed.
Print Assumptions C87_unchecked_never_panics.

(** The same for HMAC: a tag that comes out is the tag of all the inputs. *)
Theorem C87_no_wrong_tag : forall P A V, sha2_impl P A V -> forall key inputs,
  bytes key -> len key < 2 ^ 61 -> Forall bytes inputs -> Forall (fun i => len i < 2 ^ 63) inputs ->
  exists h, hmac_new (impl_function P A) Checked key = Ok h /\
  let (v, h') := u_hmac_updates P A Checked h inputs in
  (forall t, hmac_tag (impl_function P A) Checked h' = Ok t ->
     ~ In true v /\ tag_deref t = Ok (HMAC_SHA2 V key (concat inputs))) /\
  (In true v -> hmac_tag (impl_function P A) Checked h' = Panic).
Proof.
  intros P A V HI key inputs Hk Hkl Hb Hs. pose proof (impl_matches P A V HI) as M.
  destruct (P_UnwindHash.hmac_history_unwind P A V M Checked key inputs Hk Hkl Hb) as (h & E & v & m & h' & E1 & E2 & Hr & Bm & Hm).
  exists h. split; [exact E|]. rewrite E2. specialize (Hm eq_refl).
  assert (St : In true v -> 2 ^ 61 <= Z.of_nat (block_bytes V) + len m).
  { intros I. pose proof (P_UnwindHash.absorb_sticky Checked inputs _ v m Hs E1 I). lia. }
  assert (Pn : 2 ^ 61 <= Z.of_nat (block_bytes V) + len m -> hmac_tag (impl_function P A) Checked h' = Panic).
  { intros L. apply (P_UnwindHash.hmac_tag_panic P A V M h' key m Hk Hkl Hr). auto. }
  split; [|intros I; apply Pn, St, I].
  intros t Et. destruct (Z.lt_ge_cases (Z.of_nat (block_bytes V) + len m) (2 ^ 61)) as [Hlt|Hge].
  2:{ rewrite Pn in Et by exact Hge. discriminate Et. }
  assert (N : ~ In true v) by (intros I; apply St in I; lia).
  split; [exact N|].
  destruct (P_Hmac.hmac_tag_eq _ V _ (P_UnwindHash.contract_repr P A V M) Checked h' key m Hk Hkl Bm Hr Hlt) as (t' & Et' & Ed).
  rewrite Et in Et'. injection Et' as <-. rewrite Ed. unfold HMAC_SHA2.
  rewrite (P_UnwindHash.absorb_all Checked inputs _ v m E1 N). reflexivity.
Qed.
Print Assumptions C87_no_wrong_tag.

(** A history with a caught panic: after "abc" and a slice of 2^63 - 1 bytes, another one panics, "d" is absorbed; the digest
    cannot be had any more. *)
Example C87_ex : let big := repeat 0 (Z.to_nat (2 ^ 63 - 1)) in
  let inputs := [s2b "abc"; big; big; s2b "d"] in
  Forall bytes inputs /\ Forall (fun i => len i < 2 ^ 63) inputs /\
  fst (absorb Checked 0 inputs) = [false; false; true; false] /\
  fst (u_updates P256 Checked (proc_new P256 SHA256) inputs) = [false; false; true; false] /\
  (forall out, length out = 32%nat ->
     hwrite_digest Sha256 Checked (snd (u_updates P256 Checked (proc_new P256 SHA256) inputs)) out = Panic).
Proof.
  intros big inputs.
  assert (Lb : len big = 2 ^ 63 - 1) by (unfold big, len; rewrite repeat_length, Z2Nat.id; lia).
  assert (Bb : bytes big) by (apply BaseFacts.bytes_repeat; unfold byte_ok; lia). clearbody big.
  assert (Hb : Forall bytes inputs).
  { unfold inputs. repeat constructor; try exact Bb; vm_compute; intuition discriminate. }
  assert (Hs : Forall (fun i => len i < 2 ^ 63) inputs).
  { unfold inputs. repeat constructor; rewrite ?Lb; vm_compute; reflexivity. }
  assert (EA : exists m, absorb Checked 0 inputs = ([false; false; true; false], m) /\ len m = 2 ^ 63 + 3).
  { unfold inputs. cbn [absorb]. rewrite !Lb.
    change (len (s2b "abc")) with 3. change (len (s2b "d")) with 1.
    repeat match goal with |- context [?x <? 2 ^ 64] => let v := eval vm_compute in (x <? 2 ^ 64) in change (x <? 2 ^ 64) with v; cbv iota beta end.
    eexists. split; [reflexivity|]. rewrite !BaseFacts.len_app, Lb. vm_compute. reflexivity. }
  destruct EA as (m & EA & Lm). clearbody inputs.
  split; [exact Hb|]. split; [exact Hs|]. split; [rewrite EA; reflexivity|].
  assert (T : forall out, length out = 32%nat -> _) by
    (intros out Ho; exact (C87_update_panics_leave_no_trace P256 SHA256 spec_sha256 impl_sha256 Checked inputs out Hb Ho)).
  destruct (u_updates P256 Checked (proc_new P256 SHA256) inputs) as [v q]. rewrite EA in T. cbn [fst snd].
  split; [apply (T (repeat 0 32) eq_refl)|]. intros out Ho. destruct (T out Ho) as [_ E]. change (hwrite_digest (impl_function P256 SHA256) Checked q out = Panic). rewrite E, Lm. reflexivity.
Qed.
