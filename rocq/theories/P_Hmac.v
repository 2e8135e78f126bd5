(** Proofs about hmac.rs and hkdf.rs. *)
From Verif Require Import BaseFacts M_Util M_Sha2 M_Hmac M_Hkdf S_Sha2 S_Hmac Hist P_Util P_Sha2 P_Sha2Stream.
From Coq Require Import ZifyBool ZifyNat.

Section Hmac.
Variables (H : HashFunction) (V : variant) (R : hstate H -> list Z -> Prop).
Hypothesis C : hash_contract H V R.
Let B := block_bytes V.
Let ds := digest_bytes V.

Lemma update_each_repr b l : forall s msg, R s msg -> bytes l -> len msg + len l < 2 ^ 64 ->
  exists s', update_each H b s l = Ok s' /\ R s' (msg ++ l).
Proof.
  induction l as [|x l IH]; intros s msg Hs Hb Hl; cbn [update_each].
  - exists s. rewrite app_nil_r. auto.
  - apply bytes_cons in Hb as [Hx Hb]. rewrite len_cons in Hl. pose proof (len_nonneg l).
    destruct (hc_update _ _ _ C b s msg [x] Hs) as (s1 & E1 & R1).
    { apply bytes_cons. split; [assumption|constructor]. }
    { right. rewrite len_cons, len_nil. lia. }
    rewrite E1. cbn [bind].
    destruct (IH s1 (msg ++ [x]) R1 Hb) as (s2 & E2 & R2).
    { rewrite len_app, len_cons, len_nil. lia. }
    exists s2. split; [exact E2|]. rewrite <- app_assoc in R2. exact R2.
Qed.

Lemma xor_pad key p n : xorl (key ++ repeat 0 (n - length key)) (repeat p n) =
  firstn n (map (fun x => Z.lxor x p) key ++ repeat p (n - length key)).
Proof.
  revert n; induction key as [|x key IH]; intros n.
  - cbn [app map length]. rewrite Nat.sub_0_r, firstn_all2 by (rewrite repeat_length; lia).
    induction n as [|n IHn]; [reflexivity|]. cbn [repeat xorl zipwith]. rewrite Z.lxor_0_l.
    unfold xorl in IHn. now rewrite IHn.
  - destruct n as [|n]; [reflexivity|]. cbn [app map length repeat xorl zipwith firstn Nat.sub].
    unfold xorl in IH. now rewrite IH.
Qed.

Lemma xor_pad_exact key p n : (length key <= n)%nat ->
  map (fun x => Z.lxor x p) key ++ repeat p (n - length key) = xorl (key ++ repeat 0 (n - length key)) (repeat p n).
Proof.
  intros Hl. rewrite xor_pad, firstn_all2; [reflexivity|].
  rewrite app_length, map_length, repeat_length. lia.
Qed.

Lemma map_xor_bytes key p : bytes key -> byte_ok p -> bytes (map (fun x => Z.lxor x p) key).
Proof.
  intros Hk Hp. induction Hk as [|x l Hx Hl IH]; cbn [map]; constructor; auto. apply byte_lxor; assumption.
Qed.

Lemma keyed_repr b key p : bytes key -> byte_ok p -> (length key <= B)%nat ->
  exists s, keyed_hash_function H b key p = Ok s /\ R s (xorl (key ++ repeat 0 (B - length key)) (repeat p B)).
Proof.
  intros Hk Hp Hl. unfold keyed_hash_function. pose proof (hc_block _ _ _ C) as HB. fold B in HB.
  destruct (update_each_repr b (map (fun x => Z.lxor x p) key) (hdefault H) [] (hc_default _ _ _ C)) as (s1 & E1 & R1).
  { apply map_xor_bytes; assumption. }
  { unfold len. rewrite map_length. cbn. lia. }
  rewrite E1. cbn [bind]. rewrite (hc_bs _ _ _ C). fold B.
  destruct (update_each_repr b (repeat p (B - length key)) s1 _ R1) as (s2 & E2 & R2).
  { apply bytes_repeat; assumption. }
  { unfold len. cbn [app]. rewrite map_length, repeat_length. lia. }
  exists s2. split; [exact E2|]. cbn [app] in R2. rewrite <- xor_pad_exact by assumption. exact R2.
Qed.

Lemma hmac_key_length key : bytes key -> len key < 2 ^ 61 -> length (hmac_key (SHA V) B key) = B /\ bytes (hmac_key (SHA V) B key).
Proof.
  intros Hb Hl. unfold hmac_key. pose proof (hc_ds_block _ _ _ C) as Hd. fold B in Hd.
  destruct (Nat.ltb_spec B (length key)).
  - unfold SHA. rewrite app_length, repeat_length, (hc_length _ _ _ C) by assumption. split; [lia|].
    apply bytes_app; split; [apply SHA_bytes | apply bytes_repeat; unfold byte_ok; lia].
  - rewrite app_length, repeat_length. split; [lia|].
    apply bytes_app; split; [assumption | apply bytes_repeat; unfold byte_ok; lia].
Qed.

Definition hmac_repr (h : hmac H) (key msg : list Z) : Prop :=
  R (inner h) (xorl (hmac_key (SHA V) B key) (ipad B) ++ msg) /\
  R (outer h) (xorl (hmac_key (SHA V) B key) (opad B)).

Lemma hmac_new_repr b key : bytes key -> len key < 2 ^ 61 ->
  exists h, hmac_new H b key = Ok h /\ hmac_repr h key [].
Proof.
  intros Hb Hl. unfold hmac_new, hmac_repr, hmac_key. rewrite (hc_bs _ _ _ C). fold B.
  pose proof (hc_ds_range _ _ _ C) as Hdr. pose proof (hc_ds_block _ _ _ C) as Hd. fold B in Hd.
  pose proof (len_nonneg key).
  assert (HK : exists nk, (if (B <? length key)%nat then
       let! out := slice (repeat 0 MAX_DIGEST_SIZE) 0 (DIGEST_SIZE H) in
       let! s := hupdate H b (hdefault H) key in hwrite_digest H b s out
     else Ok key) = Ok nk /\ nk = (if (B <? length key)%nat then SHA V key else key)
     /\ bytes nk /\ (length nk <= B)%nat).
  { destruct (Nat.ltb_spec B (length key)) as [Hlt|Hge].
    - rewrite slice_0 by (rewrite repeat_length, (hc_ds _ _ _ C); unfold MAX_DIGEST_SIZE; lia). cbn [bind].
      destruct (hc_update _ _ _ C b (hdefault H) [] key (hc_default _ _ _ C) Hb) as (s & E & Hs).
      { right. rewrite len_nil. lia. }
      rewrite E. cbn [bind]. rewrite (hc_write _ _ _ C _ _ _ _ Hs) by (right; assumption).
      rewrite firstn_length, repeat_length, (hc_ds _ _ _ C). unfold MAX_DIGEST_SIZE.
      rewrite (proj2 (Nat.eqb_eq _ _)) by lia. cbn [app].
      eexists; split; [reflexivity|]. rewrite SHA_eq by assumption. split; [reflexivity|].
      unfold SHA. split; [apply SHA_bytes|]. rewrite (hc_length _ _ _ C) by assumption. lia.
    - exists key. auto. }
  destruct HK as (nk & EK & EK2 & Hnb & Hnl). rewrite EK. cbn [bind]. rewrite <- EK2.
  destruct (keyed_repr b nk 54 Hnb ltac:(unfold byte_ok; lia) Hnl) as (i & Ei & Ri). rewrite Ei. cbn [bind].
  destruct (keyed_repr b nk 92 Hnb ltac:(unfold byte_ok; lia) Hnl) as (o & Eo & Ro). rewrite Eo. cbn [bind].
  eexists; split; [reflexivity|]. cbn [inner outer]. rewrite app_nil_r. split; assumption.
Qed.

Lemma xpad_len key p : bytes key -> len key < 2 ^ 61 -> len (xorl (hmac_key (SHA V) B key) (repeat p B)) = Z.of_nat B.
Proof.
  intros Hb Hl. unfold len. rewrite xorl_length, repeat_length.
  destruct (hmac_key_length key Hb Hl) as [-> _]. lia.
Qed.
Lemma xpad_bytes key p : bytes key -> len key < 2 ^ 61 -> byte_ok p -> bytes (xorl (hmac_key (SHA V) B key) (repeat p B)).
Proof.
  intros Hb Hl Hp. apply xorl_bytes; [apply hmac_key_length; assumption|apply bytes_repeat; assumption].
Qed.

Lemma hmac_update_repr b h key msg input : bytes key -> len key < 2 ^ 61 -> hmac_repr h key msg -> bytes input ->
  b = Unchecked \/ Z.of_nat B + len msg + len input < 2 ^ 64 ->
  exists h', hmac_update H b h input = Ok h' /\ hmac_repr h' key (msg ++ input).
Proof.
  intros Hk Hkl [Hi Ho] Hb Hl. unfold hmac_update.
  destruct (hc_update _ _ _ C b _ _ input Hi Hb) as (s & E & Hs).
  { destruct Hl; [auto|right]. rewrite len_app. unfold ipad. rewrite xpad_len by assumption. lia. }
  rewrite E. cbn [bind]. eexists; split; [reflexivity|]. split; cbn [inner outer]; [|assumption].
  rewrite app_assoc. assumption.
Qed.

Lemma hmac_updates_repr b key inputs : bytes key -> len key < 2 ^ 61 -> forall h msg, hmac_repr h key msg -> Forall bytes inputs ->
  b = Unchecked \/ Z.of_nat B + len msg + len (concat inputs) < 2 ^ 64 ->
  exists h', hmac_updates H b h inputs = Ok h' /\ hmac_repr h' key (msg ++ concat inputs).
Proof.
  intros Hk Hkl. induction inputs as [|i inputs IH]; intros h msg Hh Hb Hl; cbn [hmac_updates concat] in *.
  - exists h. rewrite app_nil_r. auto.
  - inversion_clear Hb. rewrite len_app in Hl. pose proof (len_nonneg (concat inputs)).
    destruct (hmac_update_repr b h key msg i Hk Hkl Hh) as (s1 & E1 & R1); auto.
    { destruct Hl; [auto|right; lia]. }
    rewrite E1. cbn [bind].
    destruct (IH s1 (msg ++ i) R1) as (s2 & E2 & R2); auto.
    { destruct Hl; [auto|right; rewrite len_app; lia]. }
    exists s2. rewrite app_assoc. auto.
Qed.

(** [MAXLEN]: the inner hash absorbs one block and the message. *)
Lemma write_tag_eq b h key msg out : bytes key -> len key < 2 ^ 61 -> bytes msg -> hmac_repr h key msg ->
  Z.of_nat B + len msg < 2 ^ 61 ->
  write_tag H b h out = if (length out =? ds)%nat then Ok (HMAC (SHA V) B key msg) else Panic.
Proof.
  intros Hk Hkl Hm [Hi Ho] Hl. unfold write_tag. rewrite (hc_ds _ _ _ C). fold ds. rewrite Nat.eqb_sym.
  destruct (Nat.eqb_spec (length out) ds) as [He|He]; cbn [assertb bind]; [|reflexivity].
  pose proof (hc_ds_range _ _ _ C) as Hdr. fold ds in Hdr. pose proof (hc_block _ _ _ C) as Hbr. fold B in Hbr.
  assert (Hil : len (xorl (hmac_key (SHA V) B key) (ipad B) ++ msg) < 2 ^ 61).
  { rewrite len_app. unfold ipad. rewrite xpad_len by assumption. lia. }
  assert (Hib : bytes (xorl (hmac_key (SHA V) B key) (ipad B) ++ msg)).
  { apply bytes_app; split; [apply xpad_bytes; auto; unfold byte_ok; lia | assumption]. }
  rewrite (hc_write _ _ _ C _ _ _ _ Hi) by (right; exact Hil).
  fold ds. rewrite He, Nat.eqb_refl. cbn [bind]. rewrite SHA_eq by exact Hil.
  set (ih := SHA V (xorl (hmac_key (SHA V) B key) (ipad B) ++ msg)).
  assert (Hihl : length ih = ds) by (apply (hc_length _ _ _ C); assumption).
  destruct (hc_update _ _ _ C b _ _ ih Ho) as (s & E & Hs).
  { apply SHA_bytes. }
  { right. unfold opad. rewrite xpad_len by assumption. unfold len. rewrite Hihl. lia. }
  rewrite E. cbn [bind].
  assert (Hol : len (xorl (hmac_key (SHA V) B key) (opad B) ++ ih) < 2 ^ 61).
  { rewrite len_app. unfold opad. rewrite xpad_len by assumption. unfold len. rewrite Hihl. lia. }
  rewrite (hc_write _ _ _ C _ _ _ _ Hs) by (right; exact Hol).
  fold ds. rewrite Hihl, Nat.eqb_refl. rewrite SHA_eq by exact Hol. reflexivity.
Qed.

Lemma HMAC_length key msg : bytes key -> len key < 2 ^ 61 -> bytes msg -> length (HMAC (SHA V) B key msg) = ds.
Proof.
  intros Hk Hkl Hm. unfold HMAC, SHA at 1. apply (hc_length _ _ _ C).
  apply bytes_app. split; [apply xpad_bytes; auto; unfold byte_ok; lia|]. apply SHA_bytes.
Qed.
Lemma HMAC_bytes key msg : bytes (HMAC (SHA V) B key msg).
Proof. apply SHA_bytes. Qed.

Lemma hmac_tag_eq b h key msg : bytes key -> len key < 2 ^ 61 -> bytes msg -> hmac_repr h key msg ->
  Z.of_nat B + len msg < 2 ^ 61 ->
  exists t, hmac_tag H b h = Ok t /\ tag_deref t = Ok (HMAC (SHA V) B key msg).
Proof.
  intros Hk Hkl Hm Hr Hl. unfold hmac_tag. rewrite (hc_ds _ _ _ C). fold ds.
  pose proof (hc_ds_range _ _ _ C) as Hdr. fold ds in Hdr.
  rewrite slice_0 by (rewrite repeat_length; unfold MAX_DIGEST_SIZE; lia). cbn [bind].
  rewrite (write_tag_eq b h key msg) by assumption.
  rewrite firstn_length, repeat_length. unfold MAX_DIGEST_SIZE.
  rewrite (proj2 (Nat.eqb_eq _ _)) by lia. cbn [bind].
  pose proof (HMAC_length key msg Hk Hkl Hm) as HL.
  rewrite write_slice_ok by (rewrite HL, repeat_length; lia). cbn [bind firstn app].
  eexists; split; [reflexivity|]. unfold tag_deref. cbn [t_buffer t_size].
  rewrite slice_0 by (rewrite app_length; lia). f_equal.
  rewrite firstn_app, <- HL, firstn_all, Nat.sub_diag. cbn [firstn]. apply app_nil_r.
Qed.

Lemma new_updates b key inputs : bytes key -> len key < 2 ^ 61 -> Forall bytes inputs ->
  Z.of_nat B + len (concat inputs) < 2 ^ 61 ->
  exists h, (let! h := hmac_new H b key in hmac_updates H b h inputs) = Ok h /\ hmac_repr h key (concat inputs).
Proof.
  intros Hk Hkl Hb Hl. destruct (hmac_new_repr b key Hk Hkl) as (h0 & E0 & R0). rewrite E0. cbn [bind].
  apply (hmac_updates_repr b key inputs Hk Hkl h0 [] R0 Hb). right. rewrite len_nil. lia.
Qed.

Lemma new_update1 b key msg : bytes key -> len key < 2 ^ 61 -> bytes msg ->
  Z.of_nat B + len msg < 2 ^ 61 ->
  exists h h1, hmac_new H b key = Ok h /\ hmac_update H b h msg = Ok h1 /\ hmac_repr h1 key msg.
Proof.
  intros Hk Hkl Hb Hl. destruct (hmac_new_repr b key Hk Hkl) as (h0 & E0 & R0).
  destruct (hmac_update_repr b h0 key [] msg Hk Hkl R0 Hb) as (h1 & E1 & R1).
  { right. rewrite len_nil. lia. }
  exists h0, h1. auto.
Qed.

Lemma hmac_verify_eq b key msg tg : bytes key -> len key < 2 ^ 61 -> bytes msg ->
  Z.of_nat B + len msg < 2 ^ 61 ->
  exists v, hmac_verify H b key msg tg = Ok v /\ (v = true <-> tg = HMAC (SHA V) B key msg).
Proof.
  intros Hk Hkl Hm Hl. unfold hmac_verify.
  destruct (new_update1 b key msg Hk Hkl Hm Hl) as (h0 & h1 & E0 & E1 & R1).
  rewrite E0. cbn [bind]. rewrite E1. cbn [bind].
  destruct (hmac_tag_eq b h1 key msg Hk Hkl Hm R1 Hl) as (t & Et & Ed). rewrite Et. cbn [bind]. rewrite Ed. cbn [bind].
  set (e := HMAC (SHA V) B key msg). destruct (Nat.eqb_spec (length e) (length tg)) as [He|He].
  - destruct (verify_inner_spec e tg He) as (d & -> & Hd). cbn [bind]. eexists; split; [reflexivity|].
    rewrite Z.eqb_eq, Hd. split; congruence.
  - eexists; split; [reflexivity|]. split; [discriminate|]. intros ->. congruence.
Qed.

(** ** HKDF *)
Lemma extract_eq b salt ikm prk : bytes salt -> len salt < 2 ^ 61 -> bytes ikm ->
  Z.of_nat B + len ikm < 2 ^ 61 ->
  extract H b salt ikm prk = if (length prk =? ds)%nat then Ok (HMAC (SHA V) B salt ikm) else Panic.
Proof.
  intros Hk Hkl Hm Hl. unfold extract. rewrite (hc_ds _ _ _ C). fold ds. rewrite Nat.eqb_sym.
  destruct (Nat.eqb_spec (length prk) ds) as [He|He]; cbn [assertb bind]; [|reflexivity].
  destruct (new_update1 b salt ikm Hk Hkl Hm Hl) as (h0 & h1 & E0 & E1 & R1).
  rewrite E0. cbn [bind]. rewrite E1. cbn [bind].
  destruct (hmac_tag_eq b h1 salt ikm Hk Hkl Hm R1 Hl) as (t & Et & Ed). rewrite Et. cbn [bind]. rewrite Ed. cbn [bind].
  rewrite assertb_true; [reflexivity|]. apply Nat.eqb_eq. rewrite HMAC_length; auto.
Qed.

Section Expand.
Variables (prk info : list Z).
Hypothesis Hp : bytes prk.
Hypothesis Hpl : len prk < 2 ^ 61.
Hypothesis Hinfo : bytes info.
Hypothesis Hil : Z.of_nat B + Z.of_nat ds + len info + 1 < 2 ^ 61.
Let T := HKDF_T (SHA V) B prk info.

Lemma T_bytes i : bytes (T i).
Proof. destruct i; [constructor|]. apply HMAC_bytes. Qed.
Lemma T_msg_bytes i x : byte_ok x -> bytes (T i ++ info ++ [x]).
Proof. intros. rewrite !bytes_app. repeat split; auto using T_bytes. constructor; [assumption|constructor]. Qed.
Lemma T_length i : (i < 255)%nat -> length (T (S i)) = ds.
Proof. intros Hi. apply HMAC_length; auto. apply T_msg_bytes. unfold byte_ok; lia. Qed.
Lemma T_length_le i : (i <= 255)%nat -> (length (T i) <= ds)%nat.
Proof. destruct i; intros; [cbn; lia|]. rewrite T_length; lia. Qed.

Lemma ds_pos : (0 < ds <= 64)%nat.
Proof. apply (hc_ds_range _ _ _ C). Qed.

(** Feeding info and the counter byte to a state that holds T(i-1). *)
Lemma expand_step b h i : (i < 255)%nat -> hmac_repr h prk (T i) ->
  exists t, (let! h := hmac_update H b h info in
             let! h := hmac_update H b h [Z.of_nat (S i)] in
             let! t := hmac_tag H b h in tag_deref t) = Ok t /\ t = T (S i).
Proof.
  intros Hi Hh. pose proof (T_length_le i ltac:(lia)) as HTl.
  destruct (hmac_update_repr b h prk (T i) info Hp Hpl Hh Hinfo) as (h1 & E1 & R1).
  { right. unfold len at 1. lia. }
  rewrite E1. cbn [bind].
  assert (Hx : bytes [Z.of_nat (S i)]) by (constructor; [unfold byte_ok; lia|constructor]).
  destruct (hmac_update_repr b h1 prk _ [Z.of_nat (S i)] Hp Hpl R1 Hx) as (h2 & E2 & R2).
  { right. rewrite len_app. unfold len at 1 3. cbn [length]. lia. }
  rewrite E2. cbn [bind]. rewrite <- app_assoc in R2.
  destruct (hmac_tag_eq b h2 prk _ Hp Hpl (T_msg_bytes i (Z.of_nat (S i)) ltac:(unfold byte_ok; lia)) R2)
    as (t & Et & Ed).
  { rewrite !len_app. unfold len at 1 3. cbn [length]. lia. }
  rewrite Et. cbn [bind]. rewrite Ed. eexists; split; reflexivity.
Qed.

Lemma rekey b t : bytes t -> length t = ds ->
  exists h, (let! h := hmac_new H b prk in hmac_update H b h t) = Ok h /\ hmac_repr h prk t.
Proof.
  intros Ht Hl. destruct (new_update1 b prk t Hp Hpl Ht) as (h0 & h1 & E0 & E1 & R1).
  { unfold len in *. lia. }
  rewrite E0. cbn [bind]. rewrite E1. eauto.
Qed.

Lemma expand_loop_eq b : forall (okm : list Z) i iz h,
  (okm = [] \/ iz = Z.of_nat (S i)) -> (i * ds + length okm <= 255 * ds)%nat ->
  (b = Unchecked \/ (0 <= iz < 255 /\ (i * ds + length okm < 254 * ds)%nat)) ->
  hmac_repr h prk (T i) ->
  exists cs, expand_loop H b prk info iz h (chunks ds okm) = Ok cs /\
    concat cs = firstn (length okm) (concat (map T (seq (S i) (length (chunks ds okm))))).
Proof.
  pose proof ds_pos as Hds.
  intros okm. induction okm as [|okm Hne IH] using (chunks_ind ds ltac:(lia)); intros i iz h Hiz Hlen Hb Hh.
  - rewrite chunks_nil. cbn [expand_loop].
    assert (exists v, uchk b 8 (iz + 1) = Ok v) as [v ->].
    { destruct Hb as [->|[Hb _]]; [rewrite uchk_unchecked; eauto|]. exists (iz + 1). apply uchk_ok. lia. }
    cbn [bind]. exists []. auto.
  - destruct Hiz as [->|Hiz]; [congruence|].
    assert (Hol : (0 < length okm)%nat) by (destruct okm; [congruence|cbn; lia]).
    assert (Hi : (i < 255)%nat) by nia.
    rewrite chunks_cons by (auto; lia). cbn [expand_loop].
    assert (exists v, uchk b 8 (iz + 1) = Ok v /\ ((i = 254)%nat \/ v = Z.of_nat (S (S i)))) as (v & -> & Hv).
    { destruct Hb as [->|[Hb Hb2]].
      - rewrite uchk_unchecked. eexists; split; [reflexivity|].
        destruct (Nat.eq_dec i 254); [auto|right]. rewrite Z.mod_small; lia.
      - exists (iz + 1). split; [apply uchk_ok; lia | right; lia]. }
    cbn [bind].
    destruct (expand_step b h i Hi Hh) as (t & Et & ->). rewrite <- Hiz in Et.
    destruct (hmac_update H b h info) as [h1|]; [|discriminate]. cbn [bind] in *.
    destruct (hmac_update H b h1 [iz]) as [h2|]; [|discriminate]. cbn [bind] in *.
    destruct (hmac_tag H b h2) as [t|]; [|discriminate]. cbn [bind] in *.
    rewrite Et. cbn [bind]. rewrite (hc_ds _ _ _ C). fold ds.
    rewrite firstn_length.
    destruct (Nat.ltb_spec (Nat.min ds (length okm)) ds) as [Hlt|Hge].
    + rewrite slice_0 by (rewrite T_length; lia). cbn [bind].
      rewrite (skipn_all2 okm) by lia. rewrite chunks_nil.
      eexists; split; [reflexivity|]. cbn [concat app length seq map]. rewrite !app_nil_r. f_equal. lia.
    + rewrite T_length by assumption. rewrite assertb_true by (apply Nat.eqb_eq; lia). cbn [bind].
      destruct (rekey b (T (S i)) (T_bytes _) (T_length i Hi)) as (h3 & E3 & R3).
      destruct (hmac_new H b prk) as [h0|]; [|discriminate]. cbn [bind] in *.
      rewrite E3. cbn [bind].
      destruct (IH (S i) v h3) as (cs & Ecs & Hcs); auto.
      { destruct Hv as [Hv|Hv]; [left|right; assumption]. apply skipn_all2. nia. }
      { rewrite skipn_length. nia. }
      { destruct Hb as [Hb|[Hb1 Hb2]]; [auto|right]. rewrite skipn_length. split; [|nia].
        destruct Hv; [nia|]. subst v. assert (i < 253)%nat by nia. lia. }
      rewrite Ecs. cbn [bind]. eexists; split; [reflexivity|].
      cbn [concat length seq map]. rewrite Hcs, skipn_length.
      rewrite firstn_app, T_length by assumption.
      rewrite (firstn_all2 (T (S i))) by (rewrite T_length; lia). reflexivity.
Qed.

Lemma expand_loop_panic : forall (okm : list Z) i h, (i < 255)%nat ->
  (254 * ds <= i * ds + length okm <= 255 * ds)%nat -> hmac_repr h prk (T i) ->
  expand_loop H Checked prk info (Z.of_nat (S i)) h (chunks ds okm) = Panic.
Proof.
  pose proof ds_pos as Hds.
  intros okm. induction okm as [|okm Hne IH] using (chunks_ind ds ltac:(lia)); intros i h Hi Hlen Hh.
  - cbn [length] in Hlen. assert (i = 254)%nat by nia. subst i. reflexivity.
  - rewrite chunks_cons by (auto; lia). cbn [expand_loop].
    destruct (Nat.eq_dec i 254) as [->|Hi4]; [reflexivity|].
    rewrite uchk_ok by lia. cbn [bind].
    destruct (expand_step Checked h i Hi Hh) as (t & Et & ->).
    destruct (hmac_update H Checked h info) as [h1|]; [|discriminate]. cbn [bind] in *.
    destruct (hmac_update H Checked h1 [Z.of_nat (S i)]) as [h2|]; [|discriminate]. cbn [bind] in *.
    destruct (hmac_tag H Checked h2) as [t|]; [|discriminate]. cbn [bind] in *.
    rewrite Et. cbn [bind]. rewrite (hc_ds _ _ _ C). fold ds. rewrite firstn_length.
    assert (Hol : (ds <= length okm)%nat) by nia.
    destruct (Nat.ltb_spec (Nat.min ds (length okm)) ds) as [Hlt|Hge]; [lia|].
    rewrite T_length by assumption. rewrite assertb_true by (apply Nat.eqb_eq; lia). cbn [bind].
    destruct (rekey Checked (T (S i)) (T_bytes _) (T_length i Hi)) as (h3 & E3 & R3).
    destruct (hmac_new H Checked prk) as [h0|]; [|discriminate]. cbn [bind] in *.
    rewrite E3. cbn [bind].
    replace (Z.of_nat (S i) + 1) with (Z.of_nat (S (S i))) by lia.
    rewrite IH; [reflexivity| | |assumption]; rewrite ?skipn_length; lia.
Qed.

Lemma expand_eq b okm :
  expand H b prk info okm =
    if (ds <=? length prk)%nat && (length okm <=? 255 * ds)%nat
       && (match b with Checked => (length okm <? 254 * ds)%nat | Unchecked => true end)
    then Ok (HKDF_Expand (SHA V) B ds prk info (length okm)) else Panic.
Proof.
  pose proof ds_pos as Hds. unfold expand. rewrite (hc_ds _ _ _ C). fold ds.
  destruct (Nat.leb_spec ds (length prk)); cbn [assertb bind andb]; [|reflexivity].
  destruct (Nat.leb_spec (length okm) (255 * ds)); cbn [assertb bind andb]; [|reflexivity].
  destruct (hmac_new_repr b prk Hp Hpl) as (h & E & Rh). rewrite E. cbn [bind].
  rewrite assertb_true by (apply Nat.ltb_lt; lia). cbn [bind].
  assert (HOK : b = Unchecked \/ (length okm < 254 * ds)%nat ->
    bind (expand_loop H b prk info 1 h (chunks ds okm)) (fun cs => Ok (concat cs)) =
      Ok (HKDF_Expand (SHA V) B ds prk info (length okm))).
  { intros Hb. destruct (expand_loop_eq b okm 0 1 h) as (cs & -> & Hcs).
    - auto.
    - lia.
    - destruct Hb; [auto|right; lia].
    - exact Rh.
    - cbn [bind]. rewrite Hcs. unfold HKDF_Expand. rewrite chunks_count by lia. reflexivity. }
  destruct b; [|apply HOK; auto].
  destruct (Nat.ltb_spec (length okm) (254 * ds)); [apply HOK; auto|].
  change 1 with (Z.of_nat 1). rewrite (expand_loop_panic okm 0 h); [reflexivity| | |exact Rh]; lia.
Qed.

End Expand.
End Hmac.

(** ** The properties, for the four hash functions *)
Section Props.
Variables (H : HashFunction) (V : variant).
Hypothesis HV : sha2 H V.

Lemma block_size_eq : BLOCK_SIZE H = block_bytes V.
Proof. destruct (sha2_contract H V HV) as [R C]. apply (hc_bs _ _ _ C). Qed.
Lemma digest_size_eq : DIGEST_SIZE H = digest_bytes V.
Proof. destruct (sha2_contract H V HV) as [R C]. apply (hc_ds _ _ _ C). Qed.

Lemma hmac_history b key inputs : bytes key -> len key < 2 ^ 61 -> Forall bytes inputs ->
  Z.of_nat (BLOCK_SIZE H) + len (concat inputs) < 2 ^ 61 ->
  hmac_tag_of H b key inputs = Ok (HMAC_SHA2 V key (concat inputs)).
Proof.
  rewrite block_size_eq. destruct (sha2_contract H V HV) as [R C]. intros Hk Hkl Hi Hl. unfold hmac_tag_of.
  destruct (new_updates H V R C b key inputs Hk Hkl Hi Hl) as (h & E & Rh).
  destruct (hmac_new H b key) as [h0|]; [|discriminate]. cbn [bind] in *. rewrite E. cbn [bind].
  destruct (hmac_tag_eq H V R C b h key _ Hk Hkl (bytes_concat _ Hi) Rh Hl) as (t & -> & Ht). exact Ht.
Qed.

Lemma hmac_write_tag b key inputs h out : bytes key -> len key < 2 ^ 61 -> Forall bytes inputs ->
  Z.of_nat (BLOCK_SIZE H) + len (concat inputs) < 2 ^ 61 ->
  (let! h := hmac_new H b key in hmac_updates H b h inputs) = Ok h ->
  write_tag H b h out = if (length out =? DIGEST_SIZE H)%nat then Ok (HMAC_SHA2 V key (concat inputs)) else Panic.
Proof.
  rewrite block_size_eq, digest_size_eq. destruct (sha2_contract H V HV) as [R C]. intros Hk Hkl Hi Hl Hh.
  destruct (new_updates H V R C b key inputs Hk Hkl Hi Hl) as (h' & E & Rh).
  rewrite E in Hh. injection Hh as ->.
  apply (write_tag_eq H V R C b h key _ out Hk Hkl (bytes_concat _ Hi) Rh Hl).
Qed.

Lemma hmac_oneshot b key msg : bytes key -> len key < 2 ^ 61 -> bytes msg ->
  Z.of_nat (BLOCK_SIZE H) + len msg < 2 ^ 61 -> hmac_wrapper H b key msg = Ok (HMAC_SHA2 V key msg).
Proof.
  rewrite block_size_eq. destruct (sha2_contract H V HV) as [R C]. intros Hk Hkl Hm Hl. unfold hmac_wrapper.
  destruct (new_update1 H V R C b key msg Hk Hkl Hm Hl) as (h0 & h1 & E0 & E1 & R1).
  rewrite E0. cbn [bind]. rewrite E1. cbn [bind].
  rewrite (write_tag_eq H V R C b h1 key _ _ Hk Hkl Hm R1 Hl).
  rewrite repeat_length, digest_size_eq, Nat.eqb_refl. reflexivity.
Qed.

Lemma hmac_verify_exact b key msg tg : bytes key -> len key < 2 ^ 61 -> bytes msg ->
  Z.of_nat (BLOCK_SIZE H) + len msg < 2 ^ 61 ->
  hmac_verify H b key msg tg = Ok true /\ tg = HMAC_SHA2 V key msg \/
  hmac_verify H b key msg tg = Ok false /\ tg <> HMAC_SHA2 V key msg.
Proof.
  rewrite block_size_eq. destruct (sha2_contract H V HV) as [R C]. intros Hk Hkl Hm Hl.
  destruct (hmac_verify_eq H V R C b key msg tg Hk Hkl Hm Hl) as (v & -> & Hv).
  destruct v; [left|right]; split; auto.
  - now apply Hv.
  - intros He. apply Hv in He. discriminate.
Qed.

Lemma hmac_key_zeros key n : (length key + n <= block_bytes V)%nat ->
  hmac_key (SHA V) (block_bytes V) (key ++ repeat 0 n) = hmac_key (SHA V) (block_bytes V) key.
Proof.
  intros Hl. unfold hmac_key. rewrite app_length, repeat_length.
  destruct (Nat.ltb_spec (block_bytes V) (length key + n)); [lia|].
  destruct (Nat.ltb_spec (block_bytes V) (length key)); [lia|].
  rewrite app_length, repeat_length, <- app_assoc, <- repeat_app. do 2 f_equal. lia.
Qed.
Lemma hmac_key_hashed key : bytes key -> (block_bytes V < length key)%nat ->
  hmac_key (SHA V) (block_bytes V) (SHA V key) = hmac_key (SHA V) (block_bytes V) key.
Proof.
  intros Hb Hl. destruct (sha2_contract H V HV) as [R C]. unfold hmac_key.
  assert (HL : length (SHA V key) = digest_bytes V) by (apply (hc_length _ _ _ C); assumption).
  pose proof (hc_ds_block _ _ _ C). rewrite HL.
  destruct (Nat.ltb_spec (block_bytes V) (digest_bytes V)); [lia|].
  destruct (Nat.ltb_spec (block_bytes V) (length key)); [|lia]. rewrite HL. reflexivity.
Qed.

Lemma hmac_long_key b key digest inputs : bytes key -> len key < 2 ^ 61 -> Forall bytes inputs ->
  Z.of_nat (BLOCK_SIZE H) + len (concat inputs) < 2 ^ 61 ->
  (BLOCK_SIZE H < length key)%nat -> hash_wrapper H b key = Ok digest ->
  hmac_tag_of H b digest inputs = hmac_tag_of H b key inputs.
Proof.
  intros Hk Hkl Hi Hl Hlong Hd. rewrite (sha2_oneshot H V HV) in Hd by assumption. injection Hd as <-.
  assert (HL : length (SHA V key) = digest_bytes V).
  { destruct (sha2_contract H V HV) as [R C]. apply (hc_length _ _ _ C); assumption. }
  assert (HD : (digest_bytes V <= 64)%nat).
  { destruct (sha2_contract H V HV) as [R C]. apply (hc_ds_range _ _ _ C); assumption. }
  rewrite !hmac_history; auto.
  - unfold HMAC_SHA2, HMAC. rewrite hmac_key_hashed; auto. rewrite <- block_size_eq. assumption.
  - apply SHA_bytes.
  - unfold len. rewrite HL. lia.
Qed.

Lemma hmac_zero_key b key n inputs : bytes key -> Forall bytes inputs ->
  Z.of_nat (BLOCK_SIZE H) + len (concat inputs) < 2 ^ 61 ->
  (length key + n <= BLOCK_SIZE H)%nat ->
  hmac_tag_of H b (key ++ repeat 0 n) inputs = hmac_tag_of H b key inputs.
Proof.
  intros Hk Hi Hl Hn.
  assert (HB : (block_bytes V <= 128)%nat).
  { destruct (sha2_contract H V HV) as [R C]. apply (hc_block _ _ _ C); assumption. }
  pose proof Hn as Hn'. rewrite block_size_eq in Hn'.
  rewrite !hmac_history; auto.
  - unfold HMAC_SHA2, HMAC. rewrite hmac_key_zeros; auto.
  - unfold len. lia.
  - apply bytes_app. split; [assumption|]. apply bytes_repeat. unfold byte_ok; lia.
  - unfold len. rewrite app_length, repeat_length. lia.
Qed.

Lemma hkdf_extract b salt ikm prk : bytes salt -> len salt < 2 ^ 61 -> bytes ikm ->
  Z.of_nat (BLOCK_SIZE H) + len ikm < 2 ^ 61 ->
  extract H b salt ikm prk =
    if (length prk =? DIGEST_SIZE H)%nat then Ok (HKDF_Extract_SHA2 V salt ikm) else Panic.
Proof.
  rewrite block_size_eq, digest_size_eq. destruct (sha2_contract H V HV) as [R C]. intros.
  apply (extract_eq H V R C); assumption.
Qed.

Lemma hkdf_empty_salt ikm :
  HKDF_Extract_SHA2 V [] ikm = HKDF_Extract_SHA2 V (repeat 0 (DIGEST_SIZE H)) ikm.
Proof.
  rewrite digest_size_eq. destruct (sha2_contract H V HV) as [R C]. pose proof (hc_ds_block _ _ _ C).
  unfold HKDF_Extract_SHA2, HKDF_Extract, HMAC.
  rewrite <- (hmac_key_zeros [] (digest_bytes V)) by (cbn [length]; lia). reflexivity.
Qed.

Lemma hkdf_expand b prk info okm : bytes prk -> len prk < 2 ^ 61 -> bytes info -> len info < 2 ^ 60 ->
  expand H b prk info okm =
    if (DIGEST_SIZE H <=? length prk)%nat && (length okm <=? 255 * DIGEST_SIZE H)%nat
       && (match b with Checked => (length okm <? 254 * DIGEST_SIZE H)%nat | Unchecked => true end)
    then Ok (HKDF_Expand_SHA2 V prk info (length okm)) else Panic.
Proof.
  rewrite digest_size_eq. destruct (sha2_contract H V HV) as [R C]. intros.
  apply (expand_eq H V R C); auto.
  pose proof (hc_ds_range _ _ _ C). pose proof (hc_block _ _ _ C). lia.
Qed.

Lemma hkdf_spec_prefix prk info m n : bytes prk -> len prk < 2 ^ 61 -> bytes info ->
  (m <= n)%nat -> (n <= 255 * digest_bytes V)%nat ->
  HKDF_Expand_SHA2 V prk info m = firstn m (HKDF_Expand_SHA2 V prk info n).
Proof.
  intros Hp Hpl Hi Hmn Hn. destruct (sha2_contract H V HV) as [R C].
  pose proof (hc_ds_range _ _ _ C) as Hds. set (ds := digest_bytes V) in *.
  unfold HKDF_Expand_SHA2, HKDF_Expand. fold ds. rewrite firstn_firstn, Nat.min_l by lia.
  set (T := HKDF_T (SHA V) (block_bytes V) prk info).
  set (N1 := ((m + ds - 1) / ds)%nat). set (N2 := ((n + ds - 1) / ds)%nat).
  assert (HN1 : (m <= N1 * ds)%nat).
  { assert (m + ds - 1 < ds * S N1)%nat by (apply Nat.mul_succ_div_gt; lia). nia. }
  assert (HN : (N1 <= N2)%nat) by (apply Nat.div_le_mono; lia).
  assert (HN2 : (N2 <= 255)%nat).
  { apply Nat.lt_succ_r. apply Nat.div_lt_upper_bound; lia. }
  assert (HL : forall k j, (j + k <= 255)%nat -> length (concat (map T (seq (S j) k))) = (k * ds)%nat).
  { induction k as [|k IH]; intros j Hj; [reflexivity|].
    cbn [seq map concat]. rewrite app_length, IH by lia.
    unfold T. rewrite (T_length H V R C) by (auto; lia). reflexivity. }
  replace N2 with (N1 + (N2 - N1))%nat by lia. rewrite seq_app, map_app, concat_app, firstn_app.
  rewrite HL by lia. replace (m - N1 * ds)%nat with O by lia. cbn [firstn]. now rewrite app_nil_r.
Qed.

Lemma hkdf_expand_prefix b prk info okm okm' out : bytes prk -> len prk < 2 ^ 61 -> bytes info -> len info < 2 ^ 60 ->
  (length okm' <= length okm)%nat -> expand H b prk info okm = Ok out ->
  expand H b prk info okm' = Ok (firstn (length okm') out).
Proof.
  intros Hp Hpl Hi Hil Hle He. rewrite hkdf_expand in * by assumption.
  destruct (Nat.leb_spec (DIGEST_SIZE H) (length prk)); cbn [andb] in *; [|discriminate].
  destruct (Nat.leb_spec (length okm) (255 * DIGEST_SIZE H)); cbn [andb] in *; [|discriminate].
  destruct (Nat.leb_spec (length okm') (255 * DIGEST_SIZE H)); cbn [andb] in *; [|lia].
  rewrite digest_size_eq in *.
  destruct b.
  - destruct (Nat.ltb_spec (length okm) (254 * digest_bytes V)); [|discriminate].
    destruct (Nat.ltb_spec (length okm') (254 * digest_bytes V)); [|lia].
    injection He as <-. f_equal. apply hkdf_spec_prefix; auto.
  - injection He as <-. f_equal. apply hkdf_spec_prefix; auto.
Qed.
End Props.

Lemma hkdf_expand_checked : forall H V, sha2 H V -> forall (prk info okm : list Z),
  bytes prk -> len prk < 2 ^ 61 -> bytes info -> len info < 2 ^ 60 -> (DIGEST_SIZE H <= length prk)%nat ->
  (length okm < 254 * DIGEST_SIZE H -> expand H Checked prk info okm = Ok (HKDF_Expand_SHA2 V prk info (length okm)))%nat /\
  (254 * DIGEST_SIZE H <= length okm <= 255 * DIGEST_SIZE H ->
     expand H Checked prk info okm = Panic /\
     expand H Unchecked prk info okm = Ok (HKDF_Expand_SHA2 V prk info (length okm)))%nat.
Proof.
  intros H V HV prk info okm H1 H2 H3 H4 H5. rewrite !(hkdf_expand H V HV) by assumption.
  destruct (Nat.leb_spec (DIGEST_SIZE H) (length prk)); [cbn [andb]|lia].
  destruct (Nat.leb_spec (length okm) (255 * DIGEST_SIZE H)); cbn [andb];
  destruct (Nat.ltb_spec (length okm) (254 * DIGEST_SIZE H)); split; intros; auto; lia.
Qed.

(** Witness: 254 SHA-224 digests. *)
Lemma hkdf_expand_checked_refuted :
  ~ (forall H V, sha2 H V -> forall prk info okm : list Z, bytes prk -> bytes info ->
       expand H Checked prk info okm = Panic ->
       length prk < DIGEST_SIZE H \/ 255 * DIGEST_SIZE H < length okm)%nat.
Proof.
  intros F.
  remember (repeat 0 (254 * 28)) as okm eqn:Hokm.
  assert (Hl : length okm = (254 * 28)%nat) by (rewrite Hokm; apply repeat_length). clear Hokm.
  remember (repeat 1 28) as prk eqn:Hprk.
  assert (Hp : bytes prk) by (rewrite Hprk; apply bytes_repeat; unfold byte_ok; lia).
  assert (Hpl : length prk = 28%nat) by (rewrite Hprk; apply repeat_length). clear Hprk.
  assert (HD : DIGEST_SIZE Sha224 = 28%nat) by reflexivity.
  destruct (hkdf_expand_checked Sha224 _ is_sha224 prk [] okm) as [_ HP].
  - exact Hp.
  - unfold len. rewrite Hpl. lia.
  - constructor.
  - rewrite len_nil. lia.
  - lia.
  - destruct HP as [HP _]; [rewrite HD, Hl; lia|].
    destruct (F Sha224 _ is_sha224 prk [] okm Hp ltac:(constructor) HP) as [F1|F1]; rewrite HD in F1; lia.
Qed.
