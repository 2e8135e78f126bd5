(** Partial correctness, without any bound on lengths: what HMAC, HKDF and Ed25519 return is right. *)
From Verif Require Import BaseFacts M_Util M_Sha2 M_Hmac M_Hkdf S_Sha2 S_Hmac Hist HistGen HistSound P_Util P_Hmac P_HmacGen P_Sha2Stream.
From Coq Require Import ZifyBool ZifyNat.

Ltac inv H := match type of H with bind ?e _ = Ok _ => let E := fresh "E" in destruct e eqn:E; cbn [bind] in H; [|discriminate H] end.

Section Gen.
Variables (H : HashFunction) (b : build) (hash : list Z -> list Z).
Hypothesis C : never_wrong H b hash.
Let B := BLOCK_SIZE H.
Let ds := DIGEST_SIZE H.
(** With the limit 0 [implements] only speaks about the length of digests. *)
Lemma impl0 : implements H b 0 hash.
Proof. split; [|apply C]. intros i _ L. pose proof (len_nonneg (concat i)). lia. Qed.
Notation R := (R H b).
Notation nk := (nk H hash).
Notation xpad := (xpad H hash).
Notation mac := (mac H hash).
Notation T := (T H hash).
Definition hmac_R (h : hmac H) (key msg : list Z) : Prop := R (inner h) (xpad key 0x36 ++ msg) /\ R (outer h) (xpad key 0x5c).

Lemma upd_R s msg input s' : R s msg -> bytes input -> hupdate H b s input = Ok s' -> R s' (msg ++ input).
Proof.
  intros (l & Hl & <- & E) Hb E1. exists (l ++ [input]). split; [apply Forall_app; split; [assumption|constructor; [assumption|constructor] ]|].
  split; [rewrite concat_app; cbn [concat]; now rewrite app_nil_r|]. rewrite updates_app, E. exact E1.
Qed.
Lemma wr_R s msg out d : R s msg -> length out = ds -> hwrite_digest H b s out = Ok d -> d = hash msg.
Proof. intros (l & Hl & <- & E) Ho W. exact (proj1 C l s out d Hl E Ho W). Qed.
Lemma each_R l : forall s msg s', R s msg -> bytes l -> update_each H b s l = Ok s' -> R s' (msg ++ l).
Proof.
  induction l as [|x l IH]; intros s msg s' Hs Hb E; cbn [update_each] in E.
  - injection E as <-. now rewrite app_nil_r.
  - apply bytes_cons in Hb as [Hx Hb]. inv E. change (x :: l) with ([x] ++ l). rewrite app_assoc. apply (IH a); try assumption.
    apply (upd_R s); try assumption. apply bytes_cons. split; [assumption|constructor].
Qed.
Lemma keyed_R key p s : bytes key -> byte_ok p -> keyed_hash_function H b (nk key) p = Ok s -> R s (xpad key p).
Proof.
  intros Hk Hp E. unfold keyed_hash_function in E. inv E. unfold P_HmacGen.xpad.
  apply (each_R _ a); [|now apply bytes_repeat|exact E]. apply (each_R _ (hdefault H) []); [apply R_default| |exact E0].
  apply map_xor_bytes; [|assumption]. apply (nk_bytes H b 0 hash impl0 key Hk).
Qed.
Lemma new_R key h : bytes key -> hmac_new H b key = Ok h -> hmac_R h key [].
Proof.
  intros Hb E. unfold hmac_new in E. inv E.
  assert (EK : a = nk key).
  { unfold P_HmacGen.nk. destruct (Nat.ltb_spec (BLOCK_SIZE H) (length key)) as [Hlt|Hge]; [|now injection E0 as <-].
    inv E0. inv E0. unfold slice in E1. destruct (_ && _)%bool eqn:Q in E1; [|discriminate]. injection E1 as <-.
    apply (wr_R a1 key _ _ (upd_R (hdefault H) [] key a1 (R_default H b) Hb E2)) in E0; [exact E0|].
    rewrite firstn_length. rewrite repeat_length in Q. unfold MAX_DIGEST_SIZE in Q. fold ds in Q |- *. cbn [length]. clear -Q. lia. }
  subst a. inv E. inv E. injection E as <-. split; cbn [inner outer]; [rewrite app_nil_r|]; apply keyed_R; try assumption; unfold byte_ok; lia.
Qed.
Lemma update_R h key msg input h' : hmac_R h key msg -> bytes input -> hmac_update H b h input = Ok h' -> hmac_R h' key (msg ++ input).
Proof.
  intros [Hi Ho] Hb E. unfold hmac_update in E. inv E. injection E as <-. split; cbn [inner outer]; [|assumption].
  rewrite app_assoc. now apply (upd_R (inner h)).
Qed.
Lemma updates_R key inputs : forall h msg h', hmac_R h key msg -> Forall bytes inputs -> hmac_updates H b h inputs = Ok h' ->
  hmac_R h' key (msg ++ concat inputs).
Proof.
  induction inputs as [|i inputs IH]; intros h msg h' Hh Hb E; cbn [hmac_updates concat] in *.
  - injection E as <-. now rewrite app_nil_r.
  - inversion_clear Hb. inv E. rewrite app_assoc. apply (IH a); try assumption. now apply (update_R h).
Qed.
Lemma inner_b key msg : bytes key -> bytes msg -> bytes (xpad key 0x36 ++ msg).
Proof. intros. apply bytes_app. split; [apply (xpad_bytes H b 0 hash impl0); [assumption|unfold byte_ok; lia]|assumption]. Qed.
Lemma outer_b key msg : bytes key -> bytes msg -> bytes (xpad key 0x5c ++ hash (xpad key 0x36 ++ msg)).
Proof.
  intros. apply bytes_app. split; [apply (xpad_bytes H b 0 hash impl0); [assumption|unfold byte_ok; lia]|].
  apply (hash_bytes H b 0 hash impl0). now apply inner_b.
Qed.
Lemma mac_l key msg : bytes key -> bytes msg -> length (mac key msg) = ds.
Proof. intros. apply (hash_len H b 0 hash impl0). now apply outer_b. Qed.
Lemma mac_b key msg : bytes key -> bytes msg -> bytes (mac key msg).
Proof. intros. apply (hash_bytes H b 0 hash impl0). now apply outer_b. Qed.
Lemma write_R h key msg out d : bytes key -> bytes msg -> hmac_R h key msg -> write_tag H b h out = Ok d -> d = mac key msg.
Proof.
  intros Hk Hm [Hi Ho] E. unfold write_tag in E. inv E.
  destruct (Nat.eqb_spec (DIGEST_SIZE H) (length out)) as [Hl|Hl]; [|discriminate].
  inv E. apply (wr_R _ _ _ _ Hi (eq_sym Hl)) in E1. subst a0. inv E.
  pose proof (inner_b key msg Hk Hm) as IB.
  apply (wr_R a0 (xpad key 0x5c ++ hash (xpad key 0x36 ++ msg))) in E; [exact E| |apply (hash_len H b 0 hash impl0), IB].
  apply (upd_R (outer h)); [assumption|apply (hash_bytes H b 0 hash impl0), IB|exact E1].
Qed.
Lemma tag_R h key msg t d : bytes key -> bytes msg -> hmac_R h key msg -> hmac_tag H b h = Ok t -> tag_deref t = Ok d -> d = mac key msg.
Proof.
  intros Hk Hm Hh E D. unfold hmac_tag in E. inv E. inv E. inv E. injection E as <-.
  apply (write_R h key msg _ _ Hk Hm Hh) in E1. subst a0.
  pose proof (mac_l key msg Hk Hm) as ML.
  unfold tag_deref in D. cbn [t_buffer t_size] in D. unfold write_slice in E2. destruct (_ <=? _)%nat eqn:Q in E2; [|discriminate]. injection E2 as <-.
  unfold slice in D. destruct (_ && _)%bool in D; [|discriminate]. injection D as <-. cbn [skipn firstn app].
  rewrite Nat.sub_0_r. fold ds. rewrite <- ML, firstn_app, firstn_all, Nat.sub_diag. cbn [firstn]. apply app_nil_r.
Qed.
Lemma concat_bytes l : Forall bytes l -> bytes (concat l).
Proof. intros Hb. induction Hb; cbn [concat]; [constructor|]. now apply bytes_app. Qed.

Hypothesis Hle : (ds <= B)%nat.
Lemma mac_ok key msg : bytes key -> mac key msg = HMAC hash B key msg.
Proof.
  intros Hk.
  assert (X : forall p, xpad key p = xorl (hmac_key hash B key) (repeat p B)).
  { intros p. unfold P_HmacGen.xpad, hmac_key. apply (xor_pad_exact (nk key) p B). unfold P_HmacGen.nk. fold B.
    destruct (Nat.ltb_spec B (length key)); [rewrite (hash_len H b 0 hash impl0) by assumption; exact Hle|assumption]. }
  unfold P_HmacGen.mac, HMAC, ipad, opad. now rewrite !X.
Qed.
Lemma tag_of_R key inputs t : bytes key -> Forall bytes inputs -> hmac_tag_of H b key inputs = Ok t -> t = HMAC hash B key (concat inputs).
Proof.
  intros Hk Hb E. unfold hmac_tag_of in E. inv E. inv E. inv E. rewrite <- mac_ok by assumption.
  apply (tag_R a0 key (concat inputs) a1); try assumption; [now apply concat_bytes|]. apply (updates_R key inputs a []); try assumption. now apply new_R.
Qed.
Lemma wrapper_R key msg t : bytes key -> bytes msg -> hmac_wrapper H b key msg = Ok t -> t = HMAC hash B key msg.
Proof.
  intros Hk Hb E. unfold hmac_wrapper in E. inv E. inv E. rewrite <- mac_ok by assumption.
  apply (write_R a0 key msg (repeat 0 ds)); try assumption. apply (update_R a key []); try assumption. now apply new_R.
Qed.
Lemma verify_R key msg tg v : bytes key -> bytes msg -> hmac_verify H b key msg tg = Ok v -> (v = true <-> tg = HMAC hash B key msg).
Proof.
  intros Hk Hb E. unfold hmac_verify in E. inv E. inv E. inv E. inv E. rewrite <- mac_ok by assumption.
  apply (tag_R a0 key msg a1 a2) in E3; try assumption; [|apply (update_R a key []); try assumption; now apply new_R]. subst a2.
  destruct (Nat.eqb_spec (length (mac key msg)) (length tg)) as [He|He].
  - destruct (verify_inner_spec (mac key msg) tg He) as (d & Ed & Hd). rewrite Ed in E. cbn [bind] in E. injection E as <-.
    rewrite Z.eqb_eq, Hd. split; congruence.
  - injection E as <-. split; [discriminate|]. intros ->. congruence.
Qed.
Lemma extract_R salt ikm prk k : bytes salt -> bytes ikm -> extract H b salt ikm prk = Ok k -> k = HMAC hash B salt ikm.
Proof.
  intros Hk Hb E. unfold extract in E. inv E. inv E. inv E. inv E. inv E. inv E. injection E as <-. rewrite <- mac_ok by assumption.
  apply (tag_R a1 salt ikm a2 a3); try assumption. apply (update_R a0 salt []); try assumption. now apply new_R.
Qed.

Section Expand.
Variables (prk info : list Z).
Hypothesis Hp : bytes prk.
Hypothesis Hinfo : bytes info.
Hypothesis Hpos : (0 < ds)%nat.
Lemma T_b i : (i <= 255)%nat -> bytes (T prk info i).
Proof.
  induction i as [|i IH]; intros Hi; [constructor|]. cbn [P_HmacGen.T]. apply mac_b; [assumption|].
  rewrite !bytes_app. repeat split; [apply IH; lia|assumption|]. constructor; [unfold byte_ok; lia|constructor].
Qed.
Lemma T_l i : (i < 255)%nat -> length (T prk info (S i)) = ds.
Proof.
  intros Hi. cbn [P_HmacGen.T]. apply mac_l; [assumption|]. rewrite !bytes_app. repeat split; [apply T_b; lia|assumption|].
  constructor; [unfold byte_ok; lia|constructor].
Qed.
Lemma T_r i : T prk info i = HKDF_T hash B prk info i.
Proof. induction i as [|i IH]; [reflexivity|]. cbn [P_HmacGen.T HKDF_T]. now rewrite <- IH, mac_ok. Qed.
Lemma expand_loop_eq : forall (okm : list Z) i iz h cs,
  (okm = [] \/ iz = Z.of_nat (S i)) -> (i * ds + length okm <= 255 * ds)%nat -> hmac_R h prk (T prk info i) ->
  expand_loop H b prk info iz h (chunks ds okm) = Ok cs ->
  concat cs = firstn (length okm) (concat (map (T prk info) (seq (S i) (length (chunks ds okm))))).
Proof.
  intros okm. induction okm as [|okm Hne IH] using (chunks_ind ds ltac:(lia)); intros i iz h cs Hiz Hlen Hh E.
  - rewrite chunks_nil in *. cbn [expand_loop] in E. inv E. injection E as <-. reflexivity.
  - destruct Hiz as [->|Hiz]; [congruence|].
    assert (Hol : (0 < length okm)%nat) by (destruct okm; [congruence|cbn; lia]).
    assert (Hi : (i < 255)%nat) by nia.
    rewrite chunks_cons in * by (auto; lia). cbn [expand_loop] in E. inv E. inv E. inv E. inv E. inv E.
    assert (Hx : bytes [iz]) by (constructor; [unfold byte_ok; lia|constructor]).
    pose proof (update_R _ _ _ _ _ Hh Hinfo E1) as R1. pose proof (update_R _ _ _ _ _ R1 Hx E2) as R2. rewrite <- app_assoc in R2.
    assert (TB : bytes (T prk info i ++ info ++ [iz])).
    { rewrite !bytes_app. split; [|split; assumption]. apply T_b; lia. }
    pose proof (tag_R _ _ _ _ _ Hp TB R2 E3 E4) as ET. assert (EQ : a3 = T prk info (S i)) by (cbn [P_HmacGen.T]; rewrite <- Hiz; exact ET).
    pose proof (T_l i Hi) as TL.
    rewrite EQ in *. clear EQ ET a3. fold ds in E. rewrite firstn_length in E.
    destruct (Nat.ltb_spec (Nat.min ds (length okm)) ds) as [Hlt|Hge].
    + inv E. injection E as <-. rewrite slice_0 in E5 by (rewrite TL; lia). injection E5 as <-.
      rewrite (skipn_all2 okm) by lia. rewrite chunks_nil. cbn [concat app length seq map]. rewrite !app_nil_r. f_equal. lia.
    + inv E. inv E. inv E. inv E. injection E as <-.
      assert (TB1 : bytes (T prk info (S i))) by (apply T_b; lia).
      pose proof (update_R _ _ _ _ _ (new_R _ _ Hp E6) TB1 E7) as R3. cbn [app] in R3.
      assert (Hv : i = 254%nat \/ a = Z.of_nat (S (S i))).
      { destruct (Nat.eq_dec i 254) as [|Ni]; [auto|right]. rewrite uchk_ok in E0 by lia. injection E0 as <-. lia. }
      apply (IH (S i)) in E8; [| |rewrite skipn_length; nia|exact R3].
      2: { destruct Hv as [Hv|Hv]; [left|right; assumption]. apply skipn_all2. nia. }
      cbn [concat length seq map]. rewrite E8, skipn_length. rewrite firstn_app, TL.
      rewrite (firstn_all2 (T prk info (S i))) by (rewrite TL; lia). reflexivity.
Qed.
End Expand.
Lemma expand_R prk info okm out : bytes prk -> bytes info -> expand H b prk info okm = Ok out ->
  out = HKDF_Expand hash B ds prk info (length okm).
Proof.
  intros Hp Hi E. unfold expand in E. inv E. inv E. inv E. inv E. inv E. injection E as <-.
  assert (L1 : (length okm <= 255 * ds)%nat) by (destruct (Nat.leb_spec (length okm) (255 * DIGEST_SIZE H)); [assumption|discriminate]).
  assert (L2 : (0 < ds)%nat) by (destruct (Nat.ltb_spec 0 (DIGEST_SIZE H)); [assumption|discriminate]).
  apply (expand_loop_eq prk info Hp Hi L2 okm 0) in E4; [|now right|lia|cbn [P_HmacGen.T]; now apply new_R].
  rewrite E4. unfold HKDF_Expand. rewrite chunks_count by lia.
  rewrite (map_ext _ _ (T_r prk info Hp)). reflexivity.
Qed.

(** When a digest is only returned below [lim] bytes, a tag is too. *)
Variable lim : Z.
Hypothesis HL : forall inputs s out d, Forall bytes inputs -> hash_updates H b (hdefault H) inputs = Ok s ->
  length out = ds -> hwrite_digest H b s out = Ok d -> len (concat inputs) < lim.
Lemma wr_lim s msg out d : R s msg -> length out = ds -> hwrite_digest H b s out = Ok d -> len msg < lim.
Proof. intros (l & Hl & <- & E) Ho W. exact (HL l s out d Hl E Ho W). Qed.
Lemma xpad_l key p : bytes key -> len (xpad key p) = Z.of_nat B.
Proof.
  intros Hk. rewrite xpad_len. f_equal. unfold width, P_HmacGen.nk. fold B.
  destruct (Nat.ltb_spec B (length key)); [rewrite (hash_len H b 0 hash impl0) by assumption; fold ds|]; lia.
Qed.
Lemma new_lim key h : bytes key -> hmac_new H b key = Ok h -> (B < length key)%nat -> len key < lim.
Proof.
  intros Hb E Hlt. unfold hmac_new in E. inv E. fold B in E0. rewrite (proj2 (Nat.ltb_lt _ _) Hlt) in E0.
  inv E0. inv E0. unfold slice in E1. destruct (_ && _)%bool eqn:Q in E1; [|discriminate]. injection E1 as <-.
  apply (wr_lim a1 key _ _ (upd_R (hdefault H) [] key a1 (R_default H b) Hb E2)) in E0; [exact E0|].
  rewrite firstn_length. rewrite repeat_length in Q. unfold MAX_DIGEST_SIZE in Q. fold ds in Q |- *. cbn [length]. clear -Q. lia.
Qed.
Lemma tag_of_lim key inputs t : bytes key -> Forall bytes inputs -> hmac_tag_of H b key inputs = Ok t ->
  ((B < length key)%nat -> len key < lim) /\ Z.of_nat B + len (concat inputs) < lim.
Proof.
  intros Hk Hb E. unfold hmac_tag_of in E. inv E. split; [exact (new_lim key a Hk E0)|]. inv E. inv E.
  destruct (updates_R key inputs a [] a0 (new_R key a Hk E0) Hb E1) as [Hi _]. cbn [app] in Hi.
  unfold hmac_tag in E2. inv E2. inv E2. unfold write_tag in E4. inv E4.
  destruct (Nat.eqb_spec (DIGEST_SIZE H) (length a2)) as [Hl|Hl]; [|discriminate]. inv E4.
  pose proof (wr_lim _ _ _ _ Hi (eq_sym Hl) E6) as W. rewrite len_app, xpad_l in W by assumption. exact W.
Qed.
End Gen.

Lemma sha2_lim H V : sha2 H V -> forall inputs s out d, Forall bytes inputs -> hash_updates H Checked (hdefault H) inputs = Ok s ->
  length out = DIGEST_SIZE H -> hwrite_digest H Checked s out = Ok d -> len (concat inputs) < 2 ^ 61.
Proof.
  intros HV inputs s out d Hb E Ho W. destruct (Z.lt_ge_cases (len (concat inputs)) (2 ^ 61)) as [L|L]; [exact L|exfalso].
  destruct (sha2_long H V HV inputs out Hb Ho) as (L1 & L2 & _).
  destruct (Z.lt_ge_cases (len (concat inputs)) (2 ^ 64)) as [L'|L'].
  - destruct (L1 (conj L L')) as (s1 & E1 & W1). rewrite E in E1. injection E1 as <-. rewrite W1 in W. discriminate.
  - rewrite (L2 L') in E. discriminate.
Qed.
Lemma sha2_never_wrong H V : sha2 H V -> never_wrong H Checked (SHA V).
Proof.
  intros HV. split.
  - intros inputs s out d Hb E Ho W. pose proof (sha2_lim H V HV inputs s out d Hb E Ho W) as L.
    destruct (sha2_stream H V HV Checked inputs Hb L) as (s1 & E1 & W1). rewrite E in E1. injection E1 as <-.
    rewrite (W1 out Ho) in W. now injection W as <-.
  - intros m Hm. destruct (sha2_contract H V HV) as (R & C). rewrite (hc_ds H V R C).
    split; [apply (hc_length H V R C); exact Hm|apply SHA_bytes].
Qed.
