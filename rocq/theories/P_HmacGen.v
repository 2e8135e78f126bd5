(** HMAC and HKDF over any implementation of the trait [HashFunction]. *)
From Verif Require Import BaseFacts M_Util M_Sha2 M_Hmac M_Hkdf S_Sha2 S_Hmac Hist HistGen P_Util P_Hmac.
From Coq Require Import ZifyBool ZifyNat.

Lemma xor_pad_exact key p n : (length key <= n)%nat ->
  map (fun x => Z.lxor x p) key ++ repeat p (n - length key) = xorl (key ++ repeat 0 (n - length key)) (repeat p n).
Proof.
  revert n; induction key as [|x key IH]; intros n Hl.
  - cbn [app map length]. rewrite Nat.sub_0_r. clear Hl. induction n as [|n IHn]; [reflexivity|].
    cbn [repeat xorl zipwith]. rewrite Z.lxor_0_l. unfold xorl in IHn. now rewrite <- IHn.
  - destruct n as [|n]; [cbn in Hl; lia|]. cbn [app map length repeat xorl zipwith Nat.sub].
    unfold xorl in IH. rewrite IH; [reflexivity|cbn in Hl; lia].
Qed.

Section Gen.
Variables (H : HashFunction) (b : build) (lim : Z) (hash : list Z -> list Z).
Hypothesis C : implements H b lim hash.
Let B := BLOCK_SIZE H.
Let ds := DIGEST_SIZE H.

Definition R (s : hstate H) (msg : list Z) : Prop :=
  exists inputs, Forall bytes inputs /\ concat inputs = msg /\ hash_updates H b (hdefault H) inputs = Ok s.

Lemma updates_app : forall l s x, hash_updates H b s (l ++ [x]) = let! s' := hash_updates H b s l in hupdate H b s' x.
Proof.
  induction l as [|i l IH]; intros s x; cbn [hash_updates app bind].
  - destruct (hupdate H b s x); reflexivity.
  - destruct (hupdate H b s i) as [s1|]; cbn [bind]; [apply IH|reflexivity].
Qed.
Lemma R_default : R (hdefault H) [].
Proof. exists []. repeat split. constructor. Qed.
Lemma R_update s msg input : R s msg -> bytes input -> len msg + len input < lim ->
  exists s', hupdate H b s input = Ok s' /\ R s' (msg ++ input).
Proof.
  intros (l & Hl & <- & E) Hb Hlen.
  assert (Hf : Forall bytes (l ++ [input])) by (apply Forall_app; split; [assumption|constructor; [assumption|constructor] ]).
  assert (Hc : concat (l ++ [input]) = concat l ++ input) by (rewrite concat_app; cbn [concat]; now rewrite app_nil_r).
  destruct (proj1 C (l ++ [input]) Hf) as (s' & E' & _); [rewrite Hc, len_app; exact Hlen|].
  pose proof (updates_app l (hdefault H) input) as HA. rewrite E in HA. cbn [bind] in HA. rewrite E' in HA.
  exists s'. split; [now symmetry|]. exists (l ++ [input]). auto.
Qed.
Lemma R_write s msg out : R s msg -> len msg < lim -> length out = ds -> hwrite_digest H b s out = Ok (hash msg).
Proof.
  intros (l & Hl & <- & E) Hlen Ho. destruct (proj1 C l Hl Hlen) as (s' & E' & W).
  rewrite E in E'. injection E' as <-. exact (W out Ho).
Qed.
Lemma hash_len m : bytes m -> length (hash m) = ds.
Proof. intros Hm. apply (proj2 C m Hm). Qed.
Lemma hash_bytes m : bytes m -> bytes (hash m).
Proof. intros Hm. apply (proj2 C m Hm). Qed.

Lemma each_R l : forall s msg, R s msg -> bytes l -> len msg + len l < lim ->
  exists s', update_each H b s l = Ok s' /\ R s' (msg ++ l).
Proof.
  induction l as [|x l IH]; intros s msg Hs Hb Hl; cbn [update_each].
  - exists s. rewrite app_nil_r. auto.
  - apply bytes_cons in Hb as [Hx Hb]. rewrite len_cons in Hl. pose proof (len_nonneg l).
    destruct (R_update s msg [x] Hs) as (s1 & E1 & R1).
    { apply bytes_cons. split; [assumption|constructor]. }
    { rewrite len_cons, len_nil. lia. }
    rewrite E1. cbn [bind].
    destruct (IH s1 (msg ++ [x]) R1 Hb) as (s2 & E2 & R2).
    { rewrite len_app, len_cons, len_nil. lia. }
    exists s2. split; [exact E2|]. rewrite <- app_assoc in R2. exact R2.
Qed.

(** The key as the code uses it, and the block it fills. *)
Definition nk (key : list Z) : list Z := if (B <? length key)%nat then hash key else key.
Definition width (key : list Z) : nat := Nat.max B (length (nk key)).
Definition xpad (key : list Z) (p : Z) : list Z :=
  map (fun x => Z.lxor x p) (nk key) ++ repeat p (B - length (nk key)).

Lemma nk_bytes key : bytes key -> bytes (nk key).
Proof. intros Hb. unfold nk. destruct (Nat.ltb_spec B (length key)); [now apply hash_bytes|assumption]. Qed.
Lemma xpad_bytes key p : bytes key -> byte_ok p -> bytes (xpad key p).
Proof.
  intros Hb Hp. apply bytes_app. split; [apply map_xor_bytes; [now apply nk_bytes|assumption]|now apply bytes_repeat].
Qed.
Lemma xpad_len key p : len (xpad key p) = Z.of_nat (width key).
Proof. unfold len, xpad, width. rewrite app_length, map_length, repeat_length. lia. Qed.
Lemma width_le key : bytes key -> (width key <= Nat.max B ds)%nat.
Proof.
  intros Hb. unfold width, nk. destruct (Nat.ltb_spec B (length key)) as [Hlt|Hge].
  - rewrite hash_len by assumption. lia.
  - lia.
Qed.

Definition hmac_R (h : hmac H) (key msg : list Z) : Prop :=
  R (inner h) (xpad key 0x36 ++ msg) /\ R (outer h) (xpad key 0x5c).

Lemma keyed_R key p : bytes key -> byte_ok p -> Z.of_nat (width key) < lim ->
  exists s, keyed_hash_function H b (nk key) p = Ok s /\ R s (xpad key p).
Proof.
  intros Hk Hp Hl. unfold keyed_hash_function.
  pose proof (xpad_len key p) as Hx. unfold xpad in Hx. rewrite len_app in Hx.
  pose proof (len_nonneg (repeat p (B - length (nk key)))) as Hnn.
  destruct (each_R (map (fun x => Z.lxor x p) (nk key)) (hdefault H) [] R_default) as (s1 & E1 & R1).
  { apply map_xor_bytes; [now apply nk_bytes|assumption]. }
  { rewrite len_nil. lia. }
  rewrite E1. cbn [bind].
  destruct (each_R (repeat p (B - length (nk key))) s1 _ R1) as (s2 & E2 & R2).
  { now apply bytes_repeat. }
  { cbn [app]. lia. }
  exists s2. split; [exact E2|exact R2].
Qed.

Hypothesis Hds : (ds <= 64)%nat.
Hypothesis Hlim : Z.of_nat B + Z.of_nat ds < lim.
Hypothesis Hlim2 : 2 * Z.of_nat ds < lim.

Lemma new_R key : bytes key -> len key < lim -> exists h, hmac_new H b key = Ok h /\ hmac_R h key [].
Proof.
  intros Hb Hl. pose proof (width_le key Hb) as Hw. unfold hmac_new. fold B ds.
  assert (EK : (if (B <? length key)%nat then
       let! out := slice (repeat 0 MAX_DIGEST_SIZE) 0 ds in
       let! s := hupdate H b (hdefault H) key in hwrite_digest H b s out
     else Ok key) = Ok (nk key)).
  { unfold nk. destruct (Nat.ltb_spec B (length key)) as [Hlt|Hge]; [|reflexivity].
    rewrite slice_0 by (rewrite repeat_length; unfold MAX_DIGEST_SIZE; lia). cbn [bind].
    destruct (R_update (hdefault H) [] key R_default Hb) as (s & E & Hs); [rewrite len_nil; lia|].
    rewrite E. cbn [bind app] in *. apply R_write; [exact Hs|assumption|].
    rewrite firstn_length, repeat_length. unfold MAX_DIGEST_SIZE. lia. }
  rewrite EK. cbn [bind].
  destruct (keyed_R key 54 Hb ltac:(unfold byte_ok; lia) ltac:(lia)) as (i & Ei & Ri). rewrite Ei. cbn [bind].
  destruct (keyed_R key 92 Hb ltac:(unfold byte_ok; lia) ltac:(lia)) as (o & Eo & Ro). rewrite Eo. cbn [bind].
  eexists; split; [reflexivity|]. split; cbn [inner outer]; [rewrite app_nil_r|]; assumption.
Qed.

Lemma update_R h key msg input : hmac_R h key msg -> bytes input ->
  Z.of_nat (width key) + len msg + len input < lim ->
  exists h', hmac_update H b h input = Ok h' /\ hmac_R h' key (msg ++ input).
Proof.
  intros [Hi Ho] Hb Hl. unfold hmac_update.
  destruct (R_update _ _ input Hi Hb) as (s & E & Hs); [rewrite len_app, xpad_len; lia|].
  rewrite E. cbn [bind]. eexists; split; [reflexivity|]. split; cbn [inner outer]; [|assumption].
  rewrite app_assoc. assumption.
Qed.
Lemma updates_R key inputs : forall h msg, hmac_R h key msg -> Forall bytes inputs ->
  Z.of_nat (width key) + len msg + len (concat inputs) < lim ->
  exists h', hmac_updates H b h inputs = Ok h' /\ hmac_R h' key (msg ++ concat inputs).
Proof.
  induction inputs as [|i inputs IH]; intros h msg Hh Hb Hl; cbn [hmac_updates concat] in *.
  - exists h. rewrite app_nil_r. auto.
  - inversion_clear Hb. rewrite len_app in Hl. pose proof (len_nonneg (concat inputs)).
    destruct (update_R h key msg i Hh) as (s1 & E1 & R1); [assumption|lia|].
    rewrite E1. cbn [bind]. destruct (IH s1 (msg ++ i) R1) as (s2 & E2 & R2); [assumption|rewrite len_app; lia|].
    exists s2. rewrite app_assoc. auto.
Qed.

Definition mac (key msg : list Z) : list Z := hash (xpad key 0x5c ++ hash (xpad key 0x36 ++ msg)).

Lemma inner_bytes key msg : bytes key -> bytes msg -> bytes (xpad key 0x36 ++ msg).
Proof. intros. apply bytes_app. split; [apply xpad_bytes; [assumption|unfold byte_ok; lia]|assumption]. Qed.
Lemma outer_bytes key msg : bytes key -> bytes msg -> bytes (xpad key 0x5c ++ hash (xpad key 0x36 ++ msg)).
Proof.
  intros. apply bytes_app. split; [apply xpad_bytes; [assumption|unfold byte_ok; lia]|]. now apply hash_bytes, inner_bytes.
Qed.
Lemma mac_len key msg : bytes key -> bytes msg -> length (mac key msg) = ds.
Proof. intros. apply hash_len. now apply outer_bytes. Qed.
Lemma mac_bytes key msg : bytes key -> bytes msg -> bytes (mac key msg).
Proof. intros. apply hash_bytes. now apply outer_bytes. Qed.

Lemma tag_R h key msg : bytes key -> bytes msg -> hmac_R h key msg -> Z.of_nat (width key) + len msg < lim ->
  exists t, hmac_tag H b h = Ok t /\ tag_deref t = Ok (mac key msg).
Proof.
  intros Hk Hm [Hi Ho] Hl. pose proof (width_le key Hk) as Hw. unfold hmac_tag. fold ds.
  rewrite slice_0 by (rewrite repeat_length; unfold MAX_DIGEST_SIZE; lia). cbn [bind].
  assert (HT : write_tag H b h (firstn ds (repeat 0 MAX_DIGEST_SIZE)) = Ok (mac key msg)).
  { unfold write_tag. fold ds.
    assert (Hol : length (firstn ds (repeat 0 MAX_DIGEST_SIZE)) = ds).
    { rewrite firstn_length, repeat_length. unfold MAX_DIGEST_SIZE. lia. }
    rewrite Hol, assertb_true by apply Nat.eqb_refl. cbn [bind].
    rewrite (R_write _ _ _ Hi) by (assumption || (rewrite len_app, xpad_len; lia)). cbn [bind].
    pose proof (hash_len _ (inner_bytes key msg Hk Hm)) as HL.
    destruct (R_update _ _ (hash (xpad key 0x36 ++ msg)) Ho) as (s & E & Hs).
    { now apply hash_bytes, inner_bytes. }
    { rewrite xpad_len. unfold len. rewrite HL. lia. }
    rewrite E. cbn [bind]. apply R_write; [exact Hs| |exact HL].
    rewrite len_app, xpad_len. unfold len. rewrite HL. lia. }
  rewrite HT. cbn [bind]. pose proof (mac_len key msg Hk Hm) as HL.
  rewrite write_slice_ok by (rewrite HL, repeat_length; unfold MAX_DIGEST_SIZE; lia). cbn [bind firstn app].
  eexists; split; [reflexivity|]. unfold tag_deref. cbn [t_buffer t_size].
  rewrite slice_0 by (rewrite app_length; lia). f_equal.
  rewrite firstn_app, <- HL, firstn_all, Nat.sub_diag. cbn [firstn]. apply app_nil_r.
Qed.

Lemma tag_of_R key inputs : bytes key -> len key < lim -> Forall bytes inputs ->
  Z.of_nat (width key) + len (concat inputs) < lim ->
  hmac_tag_of H b key inputs = Ok (mac key (concat inputs)).
Proof.
  intros Hk Hkl Hb Hl. unfold hmac_tag_of. destruct (new_R key Hk Hkl) as (h & E & Rh). rewrite E. cbn [bind].
  destruct (updates_R key inputs h [] Rh Hb) as (h1 & E1 & R1); [rewrite len_nil; lia|]. rewrite E1. cbn [bind app] in *.
  destruct (tag_R h1 key (concat inputs) Hk) as (t & Et & Ed); [|assumption|assumption|].
  { clear -Hb. induction Hb; cbn [concat]; [constructor|]. now apply bytes_app. }
  rewrite Et. cbn [bind]. exact Ed.
Qed.

Lemma one_R key msg : bytes key -> len key < lim -> bytes msg -> Z.of_nat (width key) + len msg < lim ->
  exists h h1 t, hmac_new H b key = Ok h /\ hmac_update H b h msg = Ok h1 /\ hmac_R h1 key msg /\
    hmac_tag H b h1 = Ok t /\ tag_deref t = Ok (mac key msg).
Proof.
  intros Hk Hkl Hb Hl. destruct (new_R key Hk Hkl) as (h0 & E0 & R0).
  destruct (update_R h0 key [] msg R0 Hb) as (h1 & E1 & R1); [rewrite len_nil; lia|].
  destruct (tag_R h1 key msg Hk Hb R1 Hl) as (t & Et & Ed).
  exists h0, h1, t. auto.
Qed.

Lemma verify_R key msg tg : bytes key -> len key < lim -> bytes msg -> Z.of_nat (width key) + len msg < lim ->
  exists v, hmac_verify H b key msg tg = Ok v /\ (v = true <-> tg = mac key msg).
Proof.
  intros Hk Hkl Hm Hl. unfold hmac_verify.
  destruct (one_R key msg Hk Hkl Hm Hl) as (h0 & h1 & t & E0 & E1 & _ & Et & Ed).
  rewrite E0. cbn [bind]. rewrite E1. cbn [bind]. rewrite Et. cbn [bind]. rewrite Ed. cbn [bind].
  set (e := mac key msg). destruct (Nat.eqb_spec (length e) (length tg)) as [He|He].
  - destruct (verify_inner_spec e tg He) as (d & -> & Hd). cbn [bind]. eexists; split; [reflexivity|].
    rewrite Z.eqb_eq, Hd. split; congruence.
  - eexists; split; [reflexivity|]. split; [discriminate|]. intros ->. congruence.
Qed.

Lemma extract_R salt ikm prk : bytes salt -> len salt < lim -> bytes ikm -> Z.of_nat (width salt) + len ikm < lim ->
  extract H b salt ikm prk = if (length prk =? ds)%nat then Ok (mac salt ikm) else Panic.
Proof.
  intros Hk Hkl Hm Hl. unfold extract. fold ds. rewrite Nat.eqb_sym.
  destruct (Nat.eqb_spec (length prk) ds) as [He|He]; cbn [assertb bind]; [|reflexivity].
  destruct (one_R salt ikm Hk Hkl Hm Hl) as (h0 & h1 & t & E0 & E1 & _ & Et & Ed).
  rewrite E0. cbn [bind]. rewrite E1. cbn [bind]. rewrite Et. cbn [bind]. rewrite Ed. cbn [bind].
  rewrite assertb_true; [reflexivity|]. apply Nat.eqb_eq. now rewrite mac_len.
Qed.

(** ** RFC form *)
Lemma xpad_rfc key p : bytes key -> (ds <= B)%nat \/ (length key <= B)%nat ->
  xpad key p = xorl (hmac_key hash B key) (repeat p B).
Proof.
  intros Hb Hle. unfold xpad, hmac_key. fold (nk key). apply (xor_pad_exact (nk key) p B).
  unfold nk. destruct (Nat.ltb_spec B (length key)); [rewrite hash_len by assumption; lia|lia].
Qed.
Lemma width_rfc key : bytes key -> (ds <= B)%nat \/ (length key <= B)%nat -> width key = B.
Proof.
  intros Hb Hle. unfold width, nk. destruct (Nat.ltb_spec B (length key)); [rewrite hash_len by assumption; lia|lia].
Qed.
Lemma mac_rfc key msg : bytes key -> (ds <= B)%nat \/ (length key <= B)%nat -> mac key msg = HMAC hash B key msg.
Proof. intros Hb Hle. unfold mac, HMAC, ipad, opad. now rewrite !xpad_rfc. Qed.
(** A digest longer than a block, and a key longer than a block: the hashed key is not cut. *)
Lemma mac_wide key msg : bytes key -> (B < ds)%nat -> (B < length key)%nat -> mac key msg = HMAC hash ds (hash key) msg.
Proof.
  intros Hb Hd Hl.
  assert (E : forall p, xpad key p = xorl (hmac_key hash ds (hash key)) (repeat p ds)).
  { intros p. unfold xpad, nk. rewrite (proj2 (Nat.ltb_lt _ _) Hl). unfold hmac_key.
    rewrite hash_len by assumption. rewrite Nat.ltb_irrefl. rewrite hash_len by assumption.
    replace (B - ds)%nat with (ds - length (hash key))%nat by (rewrite hash_len by assumption; lia).
    rewrite xor_pad_exact by (rewrite hash_len by assumption; lia).
    rewrite hash_len by assumption. reflexivity. }
  unfold mac, HMAC, ipad, opad. now rewrite !E.
Qed.

(** ** HKDF-Expand *)
Section Expand.
Variables (prk info : list Z).
Hypothesis Hp : bytes prk.
Hypothesis Hpl : len prk < lim.
Hypothesis Hinfo : bytes info.
Hypothesis Hil : Z.of_nat (width prk) + Z.of_nat ds + len info + 1 < lim.
Hypothesis Hpos : (0 < ds)%nat.
Fixpoint T (i : nat) : list Z :=
  match i with O => [] | S i' => mac prk (T i' ++ info ++ [Z.of_nat i]) end.

Lemma T_bytes i : (i <= 255)%nat -> bytes (T i).
Proof.
  induction i as [|i IH]; intros Hi; [constructor|]. cbn [T]. apply mac_bytes; [assumption|].
  rewrite !bytes_app. repeat split; [apply IH; lia|assumption|]. constructor; [unfold byte_ok; lia|constructor].
Qed.
Lemma T_msg_bytes i x : (i <= 255)%nat -> byte_ok x -> bytes (T i ++ info ++ [x]).
Proof. intros. rewrite !bytes_app. repeat split; auto using T_bytes. constructor; [assumption|constructor]. Qed.
Lemma T_length i : (i < 255)%nat -> length (T (S i)) = ds.
Proof. intros Hi. apply mac_len; auto. apply T_msg_bytes; [lia|unfold byte_ok; lia]. Qed.
Lemma T_length_le i : (i <= 255)%nat -> (length (T i) <= ds)%nat.
Proof. destruct i; intros; [cbn; lia|]. rewrite T_length; lia. Qed.

Lemma expand_step h i : (i < 255)%nat -> hmac_R h prk (T i) ->
  exists t, (let! h := hmac_update H b h info in
             let! h := hmac_update H b h [Z.of_nat (S i)] in
             let! t := hmac_tag H b h in tag_deref t) = Ok t /\ t = T (S i).
Proof.
  intros Hi Hh. pose proof (T_length_le i ltac:(lia)) as HTl.
  destruct (update_R h prk (T i) info Hh Hinfo) as (h1 & E1 & R1).
  { unfold len at 1. lia. }
  rewrite E1. cbn [bind].
  assert (Hx : bytes [Z.of_nat (S i)]) by (constructor; [unfold byte_ok; lia|constructor]).
  destruct (update_R h1 prk _ [Z.of_nat (S i)] R1 Hx) as (h2 & E2 & R2).
  { rewrite len_app. unfold len at 1 3. cbn [length]. lia. }
  rewrite E2. cbn [bind]. rewrite <- app_assoc in R2.
  destruct (tag_R h2 prk _ Hp (T_msg_bytes i (Z.of_nat (S i)) ltac:(lia) ltac:(unfold byte_ok; lia)) R2) as (t & Et & Ed).
  { rewrite !len_app. unfold len at 1 3. cbn [length]. lia. }
  rewrite Et. cbn [bind]. rewrite Ed. eexists; split; reflexivity.
Qed.

Lemma rekey t : bytes t -> length t = ds ->
  exists h, (let! h := hmac_new H b prk in hmac_update H b h t) = Ok h /\ hmac_R h prk t.
Proof.
  intros Ht Hl. pose proof (len_nonneg info).
  destruct (one_R prk t Hp Hpl Ht) as (h0 & h1 & _ & E0 & E1 & R1 & _).
  { unfold len at 1. lia. }
  rewrite E0. cbn [bind]. rewrite E1. eauto.
Qed.

Lemma expand_loop_eq : forall (okm : list Z) i iz h,
  (okm = [] \/ iz = Z.of_nat (S i)) -> (i * ds + length okm <= 255 * ds)%nat ->
  (b = Unchecked \/ (0 <= iz < 255 /\ (i * ds + length okm < 254 * ds)%nat)) ->
  hmac_R h prk (T i) ->
  exists cs, expand_loop H b prk info iz h (chunks ds okm) = Ok cs /\
    concat cs = firstn (length okm) (concat (map T (seq (S i) (length (chunks ds okm))))).
Proof.
  intros okm. induction okm as [|okm Hne IH] using (chunks_ind ds ltac:(lia)); intros i iz h Hiz Hlen Hb Hh.
  - rewrite chunks_nil. cbn [expand_loop].
    assert (exists v, uchk b 8 (iz + 1) = Ok v) as [v ->].
    { destruct Hb as [->|[Hb _]]; [rewrite uchk_unchecked; eauto|]. exists (iz + 1). apply uchk_ok. lia. }
    cbn [bind]. exists []. auto.
  - destruct Hiz as [->|Hiz]; [congruence|].
    assert (Hol : (0 < length okm)%nat) by (destruct okm; [congruence|cbn; lia]).
    assert (Hi : (i < 255)%nat) by nia.
    rewrite chunks_cons by (auto; lia). cbn [expand_loop].
    assert (exists v, uchk b 8 (iz + 1) = Ok v /\ ((i = 254)%nat \/ v = Z.of_nat (S (S i)))) as (v & -> & Hv).
    { destruct Hb as [->|[Hb Hb2]].
      - rewrite uchk_unchecked. eexists; split; [reflexivity|].
        destruct (Nat.eq_dec i 254); [auto|right]. rewrite Z.mod_small; lia.
      - exists (iz + 1). split; [apply uchk_ok; lia | right; lia]. }
    cbn [bind].
    destruct (expand_step h i Hi Hh) as (t & Et & ->). rewrite <- Hiz in Et.
    destruct (hmac_update H b h info) as [h1|]; [|discriminate]. cbn [bind] in *.
    destruct (hmac_update H b h1 [iz]) as [h2|]; [|discriminate]. cbn [bind] in *.
    destruct (hmac_tag H b h2) as [t|]; [|discriminate]. cbn [bind] in *.
    rewrite Et. cbn [bind]. fold ds. rewrite firstn_length.
    destruct (Nat.ltb_spec (Nat.min ds (length okm)) ds) as [Hlt|Hge].
    + rewrite slice_0 by (rewrite T_length; lia). cbn [bind].
      rewrite (skipn_all2 okm) by lia. rewrite chunks_nil.
      eexists; split; [reflexivity|]. cbn [concat app length seq map]. rewrite !app_nil_r. f_equal. lia.
    + rewrite T_length by assumption. rewrite assertb_true by (apply Nat.eqb_eq; lia). cbn [bind].
      destruct (rekey (T (S i)) (T_bytes (S i) ltac:(lia)) (T_length i Hi)) as (h3 & E3 & R3).
      destruct (hmac_new H b prk) as [h0|]; [|discriminate]. cbn [bind] in *.
      rewrite E3. cbn [bind].
      destruct (IH (S i) v h3) as (cs & Ecs & Hcs); auto.
      { destruct Hv as [Hv|Hv]; [left|right; assumption]. apply skipn_all2. nia. }
      { rewrite skipn_length. nia. }
      { destruct Hb as [Hb|[Hb1 Hb2]]; [auto|right]. rewrite skipn_length. split; [|nia].
        destruct Hv; [nia|]. subst v. assert (i < 253)%nat by nia. lia. }
      rewrite Ecs. cbn [bind]. eexists; split; [reflexivity|].
      cbn [concat length seq map]. rewrite Hcs, skipn_length.
      rewrite firstn_app, T_length by assumption.
      rewrite (firstn_all2 (T (S i))) by (rewrite T_length; lia). reflexivity.
Qed.

Lemma expand_loop_panic : b = Checked -> forall (okm : list Z) i h, (i < 255)%nat ->
  (254 * ds <= i * ds + length okm <= 255 * ds)%nat -> hmac_R h prk (T i) ->
  expand_loop H b prk info (Z.of_nat (S i)) h (chunks ds okm) = Panic.
Proof.
  intros Eb okm. induction okm as [|okm Hne IH] using (chunks_ind ds ltac:(lia)); intros i h Hi Hlen Hh.
  - cbn [length] in Hlen. assert (i = 254)%nat by (clear -Hlen Hi Hpos; nia). rewrite Eb. subst i. reflexivity.
  - rewrite chunks_cons by (auto; lia). cbn [expand_loop].
    destruct (Nat.eq_dec i 254) as [->|Hi4]; [rewrite Eb; reflexivity|].
    rewrite uchk_ok by lia. cbn [bind].
    destruct (expand_step h i Hi Hh) as (t & Et & ->).
    destruct (hmac_update H b h info) as [h1|]; [|discriminate]. cbn [bind] in *.
    destruct (hmac_update H b h1 [Z.of_nat (S i)]) as [h2|]; [|discriminate]. cbn [bind] in *.
    destruct (hmac_tag H b h2) as [t|]; [|discriminate]. cbn [bind] in *.
    rewrite Et. cbn [bind]. fold ds. rewrite firstn_length.
    assert (Hol : (ds <= length okm)%nat) by nia.
    destruct (Nat.ltb_spec (Nat.min ds (length okm)) ds) as [Hlt|Hge]; [lia|].
    rewrite T_length by assumption. rewrite assertb_true by (apply Nat.eqb_eq; lia). cbn [bind].
    destruct (rekey (T (S i)) (T_bytes (S i) ltac:(lia)) (T_length i Hi)) as (h3 & E3 & R3).
    destruct (hmac_new H b prk) as [h0|]; [|discriminate]. cbn [bind] in *.
    rewrite E3. cbn [bind].
    replace (Z.of_nat (S i) + 1) with (Z.of_nat (S (S i))) by lia.
    rewrite IH; [reflexivity| | |assumption]; rewrite ?skipn_length; lia.
Qed.

Lemma T_rfc : (ds <= B)%nat \/ (length prk <= B)%nat -> forall i, T i = HKDF_T hash B prk info i.
Proof. intros Hle. induction i as [|i IH]; [reflexivity|]. cbn [T HKDF_T]. now rewrite <- IH, mac_rfc. Qed.

Lemma expand_R okm : (ds <= B)%nat \/ (length prk <= B)%nat ->
  expand H b prk info okm =
    if (ds <=? length prk)%nat && (length okm <=? 255 * ds)%nat
       && (match b with Checked => (length okm <? 254 * ds)%nat | Unchecked => true end)
    then Ok (HKDF_Expand hash B ds prk info (length okm)) else Panic.
Proof.
  intros Hle. unfold expand. fold ds.
  destruct (Nat.leb_spec ds (length prk)); cbn [assertb bind andb]; [|reflexivity].
  destruct (Nat.leb_spec (length okm) (255 * ds)); cbn [assertb bind andb]; [|reflexivity].
  destruct (new_R prk Hp Hpl) as (h & E & Rh). rewrite E. cbn [bind].
  rewrite assertb_true by (apply Nat.ltb_lt; lia). cbn [bind].
  assert (HOK : b = Unchecked \/ (length okm < 254 * ds)%nat ->
    bind (expand_loop H b prk info 1 h (chunks ds okm)) (fun cs => Ok (concat cs)) =
      Ok (HKDF_Expand hash B ds prk info (length okm))).
  { intros Hb. destruct (expand_loop_eq okm 0 1 h) as (cs & -> & Hcs).
    - auto.
    - lia.
    - destruct Hb; [auto|right; lia].
    - exact Rh.
    - cbn [bind]. rewrite Hcs. unfold HKDF_Expand. rewrite chunks_count by lia.
      rewrite (map_ext _ _ (T_rfc Hle)). reflexivity. }
  destruct (length okm <? 254 * ds)%nat eqn:E254.
  - apply Nat.ltb_lt in E254. rewrite HOK by auto. destruct b; reflexivity.
  - apply Nat.ltb_ge in E254. assert (Hb : b = Checked \/ b = Unchecked) by (destruct b; auto).
    destruct Hb as [Hb|Hb].
    + change 1 with (Z.of_nat 1). rewrite (expand_loop_panic Hb okm 0 h); [rewrite Hb; reflexivity| | |exact Rh]; lia.
    + rewrite HOK by auto. rewrite Hb. reflexivity.
Qed.
End Expand.
End Gen.

(** Digests of more than 64 bytes. *)
Lemma tag_big H b h : (64 < DIGEST_SIZE H)%nat -> hmac_tag H b h = Panic.
Proof.
  intros Hd. unfold hmac_tag, slice. rewrite repeat_length. unfold MAX_DIGEST_SIZE.
  rewrite (proj2 (Nat.leb_gt (DIGEST_SIZE H) 64)) by assumption. rewrite Bool.andb_false_r. reflexivity.
Qed.
Lemma tag_of_big H b key inputs : (64 < DIGEST_SIZE H)%nat -> hmac_tag_of H b key inputs = Panic.
Proof.
  intros Hd. unfold hmac_tag_of. destruct (hmac_new H b key) as [h|]; cbn [bind]; [|reflexivity].
  destruct (hmac_updates H b h inputs) as [h1|]; cbn [bind]; [|reflexivity]. rewrite tag_big by assumption. reflexivity.
Qed.
Lemma verify_big H b key msg tg : (64 < DIGEST_SIZE H)%nat -> hmac_verify H b key msg tg = Panic.
Proof.
  intros Hd. unfold hmac_verify. destruct (hmac_new H b key) as [h|]; cbn [bind]; [|reflexivity].
  destruct (hmac_update H b h msg) as [h1|]; cbn [bind]; [|reflexivity]. rewrite tag_big by assumption. reflexivity.
Qed.
Lemma extract_big H b salt ikm prk : (64 < DIGEST_SIZE H)%nat -> extract H b salt ikm prk = Panic.
Proof.
  intros Hd. unfold extract. destruct (assertb _) as [|]; cbn [bind]; [|reflexivity].
  destruct (hmac_new H b salt) as [h|]; cbn [bind]; [|reflexivity].
  destruct (hmac_update H b h ikm) as [h1|]; cbn [bind]; [|reflexivity]. rewrite tag_big by assumption. reflexivity.
Qed.
Lemma expand_big H b prk info okm : (64 < DIGEST_SIZE H)%nat -> okm <> [] -> expand H b prk info okm = Panic.
Proof.
  intros Hd Hne. unfold expand. destruct (assertb (_ <=? length prk)%nat) as [|]; cbn [bind]; [|reflexivity].
  destruct (assertb (length okm <=? _)%nat) as [|]; cbn [bind]; [|reflexivity].
  destruct (hmac_new H b prk) as [h|]; cbn [bind]; [|reflexivity].
  destruct (assertb (0 <? _)%nat) as [|]; cbn [bind]; [|reflexivity].
  rewrite chunks_cons by (auto; lia). cbn [expand_loop].
  destruct (uchk b 8 (1 + 1)) as [|]; cbn [bind]; [|reflexivity].
  destruct (hmac_update H b h info) as [h1|]; cbn [bind]; [|reflexivity].
  destruct (hmac_update H b h1 [1]) as [h2|]; cbn [bind]; [|reflexivity]. rewrite tag_big by assumption. reflexivity.
Qed.
Lemma expand_zero H b prk info okm : DIGEST_SIZE H = 0%nat -> expand H b prk info okm = Panic.
Proof.
  intros Hd. unfold expand. rewrite Hd. destruct (assertb (_ <=? length prk)%nat) as [|]; cbn [bind]; [|reflexivity].
  destruct (assertb (length okm <=? _)%nat) as [|]; cbn [bind]; [|reflexivity].
  destruct (hmac_new H b prk) as [h|]; reflexivity.
Qed.
