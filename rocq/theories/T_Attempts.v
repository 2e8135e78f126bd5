(** C91: any number of adaptive forgery attempts against the two AEADs. *)
From Coq Require Import String.
From Verif Require Import Base Hex M_Aes M_Ghash M_Gcm M_ChaCha20 M_Poly1305 S_Gf2 S_Gcm S_Aes S_ChaCha S_PolyLazy T_Gcm T_Ccp T_Forge T_PolyExact.
From Verif Require P_Forge P_Gcm P_Forge2 P_Ccp P_Ghash P_Poly1305 BaseFacts.

(** What goes over the wire: nonce, associated data, ciphertext, tag. *)
Record sealed := Sealed { s_nonce : list Z; s_data : list Z; s_ct : list Z; s_tag : list Z }.
(** The attacker chooses each attempt from the verdicts on the earlier ones (first verdict first). *)
Definition strategy := list bool -> sealed.
(** [h] is what [decrypt], given to the attacker as an oracle, answers to the attempts of [A]. *)
Definition gcm_verdicts (E : BlockCipher) (b : build) (k : bc_state E) (A : strategy) (h : list bool) : Prop :=
  forall i v, nth_error h i = Some v -> exists out r,
    let a := A (firstn i h) in gcm_decrypt E b k (s_ct a) (s_nonce a) (s_data a) (s_tag a) out = Ok (r, v).
Definition ccp_verdicts (b : build) (key : list Z) (A : strategy) (h : list bool) : Prop :=
  forall i v, nth_error h i = Some v -> exists out r,
    let a := A (firstn i h) in ccp_decrypt b key (s_ct a) (s_nonce a) (s_data a) (s_tag a) out = Ok (r, v).

(** The first accepted attempt comes after rejections only. *)
Lemma first_true : forall h : list bool, In true h ->
  exists i, (i < length h)%nat /\ nth_error h i = Some true /\ firstn i h = repeat false i.
Proof.
  induction h as [|[|] h IH]; [intros []| |].
  - intros _. exists 0%nat. cbn. repeat split. lia.
  - intros [H|H]; [discriminate H|]. destruct (IH H) as (i & Li & Ei & Fi).
    exists (S i). cbn [length nth_error firstn repeat]. rewrite Fi. repeat split; [lia|exact Ei].
Qed.
Lemma sealed_dec (T : list sealed) (n : list Z) : {s | In s T /\ s_nonce s = n} + {~ In n (map s_nonce T)}.
Proof.
  induction T as [|s T IH]; [right; intros []|].
  destruct (list_eq_dec Z.eq_dec (s_nonce s) n) as [E|N]; [left; exists s; split; [now left|exact E]|].
  destruct IH as [[s' [I E]]|N']; [left; exists s'; split; [now right|exact E]|right].
  intros [E|I]; [now apply N|now apply N'].
Qed.
Lemma sealed_ext (s a : sealed) : s_nonce s = s_nonce a -> s_data s = s_data a -> s_ct s = s_ct a -> s_tag s = s_tag a -> s = a.
Proof. destruct s, a. cbn. now intros -> -> -> ->. Qed.
(** [q] sets, one for each attempt, make one. *)
Lemma collect {B G : Type} (q : nat) (L : Z) (Q : nat -> list B -> G -> Prop)
  (g0 : G) : (forall i, exists bad g, Z.of_nat (length bad) <= L /\ Q i bad g) ->
  (forall i bad bad' g, incl bad bad' -> Q i bad g -> Q i bad' g) ->
  exists bad (g : nat -> G), Z.of_nat (length bad) <= Z.of_nat q * L /\ forall i, (i < q)%nat -> Q i bad (g i).
Proof.
  intros H Mono. induction q as [|q IH].
  - exists [], (fun _ => g0). split; [cbn [length]; lia|]. intros i Hi. lia.
  - destruct IH as (bad & g & Lb & Hb). destruct (H q) as (bad' & g' & Lb' & Hb').
    exists (bad' ++ bad), (fun i => if (i =? q)%nat then g' else g i). split; [rewrite app_length; lia|].
    intros i Hi. destruct (Nat.eqb_spec i q) as [->|Ne].
    + apply (Mono q bad'); [apply incl_appl, incl_refl|exact Hb'].
    + apply (Mono i bad); [apply incl_appr, incl_refl|]. apply Hb. lia.
Qed.

(** ** AES-GCM (and GCM over any block cipher) *)
(** [E] and [k] made all of [T]. *)
Definition gcm_made (E : BlockCipher) (k : bc_state E) (T : list sealed) : Prop :=
  forall s, In s T -> exists b msg out, bytes msg /\ gcm_encrypt E b k msg (s_nonce s) (s_data s) out = Ok (s_ct s, s_tag s).
Definition gcm_sealed (L : Z) (s : sealed) : Prop :=
  bytes (s_nonce s) /\ gcm_data (s_data s) /\ gcm_message (s_ct s) /\ hash_blocks (s_data s) (s_ct s) <= L.

Lemma gcm_one (T : list sealed) (L : Z) (a : sealed) : (forall s, In s T -> gcm_sealed L s) -> gcm_sealed L a -> ~ In a T ->
  exists (bad : list (list Z)) (guess : list Z -> list Z), Z.of_nat (length bad) <= L /\
    forall E k, block_cipher E k -> gcm_made E k T -> forall b out r,
      gcm_decrypt E b k (s_ct a) (s_nonce a) (s_data a) (s_tag a) out = Ok (r, true) ->
      In (bc_permute E k (repeat 0 16)) bad \/
      (~ In (s_nonce a) (map s_nonce T) /\ bc_permute E k (J0 (s_nonce a)) = guess (bc_permute E k (repeat 0 16))).
Proof.
  intros HT (Bn & Hd & Hc & HL) Na.
  assert (L0 : 0 <= L). { unfold hash_blocks, len in HL. lia. }
  destruct (sealed_dec T (s_nonce a)) as [[s [Is En]]|Fresh].
  - destruct (HT s Is) as (Bn' & Hd' & Hc' & HL').
    destruct (list_eq_dec Z.eq_dec (s_data a) (s_data s)) as [Ed|Nd]; [destruct (list_eq_dec Z.eq_dec (s_ct a) (s_ct s)) as [Ec|Nc]|].
    1:{ (* the same data and ciphertext: another tag, never accepted *)
      exists [], (fun x => x). split; [cbn [length]; lia|]. intros E k HE HM b out r Ea. exfalso. apply Na.
      destruct (HM s Is) as (b' & msg & out' & Bm & Es).
      destruct (gcm_accept_inv E k HE b _ _ _ _ _ _ Bn Hd Hc Ea) as [_ Ta].
      assert (Es' : gcm_decrypt E b' k (s_ct s) (s_nonce s) (s_data s) (s_tag s) msg = Ok (msg, true)).
      { apply (C31_roundtrip E k HE b' b' (s_nonce s) (s_data s) msg out' msg _ _ Bn' (proj1 Hd') Bm Es); [now left|reflexivity]. }
      destruct (gcm_accept_inv E k HE b' _ _ _ _ _ _ Bn' Hd' Hc' Es') as [_ Ts].
      replace a with s; [exact Is|]. apply sealed_ext; [exact En|symmetry; exact Ed|symmetry; exact Ec|]. rewrite Ta, Ts, En, Ed, Ec. reflexivity. }
    all: destruct (C60_gcm_forgery_after_encrypt (s_data s) (s_ct s) (s_tag s) (s_data a) (s_ct a) (s_tag a) Hd' Hc' Hd Hc) as (bad & Lb & Hb);
      [congruence|]; exists bad, (fun x => x); split; [lia|]; intros E k HE HM b out r Ea; left;
      destruct (HM s Is) as (b' & msg & out' & Bm & Es); rewrite <- En in Ea; exact (Hb E k HE b' b (s_nonce s) msg out' out r Bn' Bm Es Ea).
  - exists [], (fun H => xorl (s_tag a) (GHASH H (ghash_input (s_data a) (s_ct a)))). split; [cbn [length]; lia|].
    intros E k HE HM b out r Ea. right. split; [exact Fresh|].
    destruct (gcm_accept_inv E k HE b _ _ _ _ _ _ Bn Hd Hc Ea) as [Hn Ta]. rewrite Ta, P_Forge.tag_mask.
    assert (BJ : is_block (bc_permute E k (J0 (s_nonce a)))).
    { apply HE. destruct Hn as [Hn _]. split; [unfold J0; rewrite app_length, Hn; reflexivity|].
      apply BaseFacts.bytes_app. split; [exact Bn|]. apply BaseFacts.bytesb_spec. reflexivity. }
    rewrite (BaseFacts.xorl_comm (GHASH _ _)). symmetry. apply BaseFacts.xorl_cancel.
    unfold GHASH. apply Nat.eq_le_incl. etransitivity; [exact (proj1 BJ)|]. symmetry. apply P_Ghash.poly_block_ok.
Qed.

(** Fix what the attacker has seen ([T]), the attacker's strategy and a number [q] of attempts, none of them a copy of a member of [T], all of
    at most [L] blocks.  One set of at most [q * L] 16-byte strings and one function for each attempt exist such that, for EVERY block cipher and
    key that made [T], if any of the [q] attempts is accepted then the hash key (the encryption of the zero block) lies in the set, or, for an
    attempt with a fresh nonce, the encryption of the first counter block of that nonce is the value the function gives to the hash key. *)
Theorem C91_gcm_attempts : forall (T : list sealed) (A : strategy) (L : Z) (q : nat),
  (forall s, In s T -> gcm_sealed L s) -> (forall h, gcm_sealed L (A h) /\ ~ In (A h) T) ->
  exists (bad : list (list Z)) (guess : nat -> list Z -> list Z), Z.of_nat (length bad) <= Z.of_nat q * L /\
    forall E k, block_cipher E k -> gcm_made E k T -> forall b h, (length h <= q)%nat -> gcm_verdicts E b k A h -> In true h ->
      In (bc_permute E k (repeat 0 16)) bad \/
      exists i, (i < q)%nat /\ let n := s_nonce (A (repeat false i)) in
        ~ In n (map s_nonce T) /\ bc_permute E k (J0 n) = guess i (bc_permute E k (repeat 0 16)).
Proof.
  intros T A L q HT HA.
  destruct (collect (B := list Z) (G := list Z -> list Z) q L
    (fun i bad g => forall E k, block_cipher E k -> gcm_made E k T -> forall b out r, let a := A (repeat false i) in
      gcm_decrypt E b k (s_ct a) (s_nonce a) (s_data a) (s_tag a) out = Ok (r, true) ->
      In (bc_permute E k (repeat 0 16)) bad \/
      (~ In (s_nonce a) (map s_nonce T) /\ bc_permute E k (J0 (s_nonce a)) = g (bc_permute E k (repeat 0 16)))) (fun x => x)) as (bad & g & Lb & Hb).
  - intros i. destruct (HA (repeat false i)) as [Ha Na]. exact (gcm_one T L (A (repeat false i)) HT Ha Na).
  - intros i bad bad' g Inc H E k HE HM b out r a Ea. destruct (H E k HE HM b out r Ea) as [I|R]; [left; now apply Inc|now right].
  - exists bad, g. split; [exact Lb|]. intros E k HE HM b h Lh V I.
    destruct (first_true h I) as (i & Li & Ei & Fi). destruct (V i true Ei) as (out & r & Ea). rewrite Fi in Ea.
    destruct (Hb i ltac:(lia) E k HE HM b out r Ea) as [R|R]; [now left|right]. exists i. split; [lia|exact R].
Qed.
Print Assumptions C91_gcm_attempts.

(** ** ChaCha20-Poly1305 *)
Definition ccp_made (key : list Z) (T : list sealed) : Prop :=
  forall s, In s T -> exists b msg out, is_slice msg /\ ccp_encrypt b key msg (s_nonce s) (s_data s) out = Ok (s_ct s, s_tag s).
Definition ccp_sealed (L : Z) (s : sealed) : Prop :=
  bytes (s_nonce s) /\ is_slice (s_data s) /\ is_slice (s_ct s) /\ hash_blocks (s_data s) (s_ct s) <= L.
(** The secret pad s of Poly1305. *)
Definition poly_s (key nonce : list Z) : Z := le_decode (skipn 16 (one_time_key key nonce)).

Lemma ccp_accept_tag b key nonce data ct tag out r : chacha_key key -> bytes nonce -> is_slice data -> is_slice ct ->
  ccp_decrypt b key ct nonce data tag out = Ok (r, true) -> chacha_nonce nonce /\ tag = program_tag key nonce data ct.
Proof.
  intros [Hk Bk] Bn [Bd Ld] [Bc Lc] E.
  destruct (Nat.eq_dec (length ct) (length out)) as [Hl|Hl].
  2:{ rewrite P_Ccp.decrypt_bad_args in E by auto. discriminate. }
  destruct (Nat.eq_dec (length nonce) 12) as [Hn|Hn].
  2:{ rewrite P_Ccp.decrypt_bad_args in E by auto. discriminate. }
  split; [split; assumption|].
  destruct (P_Ccp.decrypt_ok key nonce Hk Hn Bk Bn ct data Bc Bd Ld Lc) as (t & _ & _ & Ee & _ & Ef).
  destruct (list_eq_dec Z.eq_dec tag t) as [->|Nt].
  2:{ rewrite (Ef b out tag) in E by (try assumption; congruence). discriminate. }
  specialize (Ee Unchecked out (eq_sym Hl) (or_introl eq_refl)).
  refine (proj1 (C21_tag_exactly Unchecked key nonce data _ out ct t (conj Hk Bk) (conj Hn Bn) (conj Bd Ld) _ Ee)).
  split; [now apply P_Ccp.crypt_bytes|]. unfold len in *. now rewrite P_Ccp.crypt_length.
Qed.
(** The number whose sum with s the program returns, as a function of r. *)
Definition program_acc (r : Z) (data ct : list Z) : Z :=
  let v := poly1305_acc r (mac_data data ct) in if lazy_acc r (mac_data data ct) <? P1305 then v else faulty_acc v.
Lemma program_tag_sum key nonce data ct : program_tag key nonce data ct = le_encode 16 (program_acc (poly_r key nonce) data ct + poly_s key nonce).
Proof.
  unfold program_tag, program_acc, poly_r, poly_s, faulty_tag, rfc8439_acc, rfc8439_tag, poly1305_mac. destruct (_ <? _); reflexivity.
Qed.
Lemma poly_s_range key nonce : chacha_key key -> chacha_nonce nonce -> 0 <= poly_s key nonce < 2 ^ 128.
Proof.
  intros [Hk Bk] [Hn Bn]. destruct (P_Ccp.otk_ok key nonce) as [Bo Lo]; try assumption.
  unfold poly_s. pose proof (BaseFacts.le_decode_range (skipn 16 (one_time_key key nonce)) (BaseFacts.bytes_skipn _ _ Bo)) as H.
  unfold len in H. rewrite skipn_length, Lo in H. exact H.
Qed.

Lemma ccp_one (T : list sealed) (L : Z) (a : sealed) : (forall s, In s T -> ccp_sealed L s) -> ccp_sealed L a -> ~ In a T ->
  exists (bad : list (list Z * Z)) (guess : Z -> Z), Z.of_nat (length bad) <= 8712 * L /\
    forall key, chacha_key key -> ccp_made key T -> forall b out r,
      ccp_decrypt b key (s_ct a) (s_nonce a) (s_data a) (s_tag a) out = Ok (r, true) ->
      In (s_nonce a, poly_r key (s_nonce a)) bad \/
      (~ In (s_nonce a) (map s_nonce T) /\ poly_s key (s_nonce a) = guess (poly_r key (s_nonce a))).
Proof.
  intros HT (Bn & Hd & Hc & HL) Na.
  assert (L0 : 0 <= L). { unfold hash_blocks, len in HL. lia. }
  destruct (sealed_dec T (s_nonce a)) as [[s [Is En]]|Fresh].
  - destruct (HT s Is) as (Bn' & Hd' & Hc' & HL').
    destruct (list_eq_dec Z.eq_dec (s_data a) (s_data s)) as [Ed|Nd]; [destruct (list_eq_dec Z.eq_dec (s_ct a) (s_ct s)) as [Ec|Nc]|].
    1:{ exists [], (fun x => x). split; [cbn [length]; lia|]. intros key Hk HM b out r Ea. exfalso. apply Na.
      destruct (HM s Is) as (b' & msg & out' & Bm & Es).
      destruct (ccp_accept_tag b key _ _ _ _ _ _ Hk Bn Hd Hc Ea) as [Hn Ta].
      rewrite <- En in Hn.
      pose proof (proj1 (C21_tag_exactly b' key _ _ _ _ _ _ Hk Hn Hd' Bm Es)) as Ts.
      replace a with s; [exact Is|]. apply sealed_ext; [exact En|symmetry; exact Ed|symmetry; exact Ec|]. rewrite Ta, Ts, En, Ed, Ec. reflexivity. }
    all: destruct (C61_ccp_forgery_bound (s_data s) (s_ct s) (s_tag s) (s_data a) (s_ct a) (s_tag a) Hd' Hc' Hd Hc) as (bad & Lb & Hb);
      [congruence|]; exists (map (fun r => (s_nonce a, r)) bad), (fun x => x); split; [rewrite map_length; lia|]; intros key Hk HM b out r Ea; left;
      destruct (HM s Is) as (b' & msg & out' & Bm & Es);
      destruct (ccp_accept_tag b key _ _ _ _ _ _ Hk Bn Hd Hc Ea) as [Hn _];
      assert (Hn' : chacha_nonce (s_nonce s)) by (rewrite En; exact Hn);
      pose proof (C18_roundtrip b' Unchecked key (s_nonce s) (s_data s) msg out' msg _ _ Hk Hn' Hd' Bm Es (or_intror eq_refl) eq_refl) as Es';
      apply in_map; rewrite <- En in Ea |- *; exact (Hb key (s_nonce s) Hk Bn' Unchecked b msg out msg r Es' Ea).
  - exists [], (fun x => (le_decode (s_tag a) - program_acc x (s_data a) (s_ct a)) mod 2 ^ 128). split; [cbn [length]; lia|].
    intros key Hk HM b out r Ea. right. split; [exact Fresh|].
    destruct (ccp_accept_tag b key _ _ _ _ _ _ Hk Bn Hd Hc Ea) as [Hn Ta]. rewrite Ta, program_tag_sum, BaseFacts.le_decode_encode.
    change (256 ^ Z.of_nat 16) with (2 ^ 128). rewrite Zminus_mod_idemp_l. pose proof (poly_s_range key _ Hk Hn) as R.
    set (w := program_acc _ _ _). set (s := poly_s _ _) in *. clearbody w s. clear - R. replace (w + s - w) with s by lia. symmetry. now apply Z.mod_small.
Qed.

(** The same for ChaCha20-Poly1305: the point r of the attempt's nonce lies in a set fixed in advance, with at most [8712 * q * L] entries over
    all nonces, or, for a fresh nonce, s is the value one function of the attempt gives to r. *)
Theorem C91_ccp_attempts : forall (T : list sealed) (A : strategy) (L : Z) (q : nat),
  (forall s, In s T -> ccp_sealed L s) -> (forall h, ccp_sealed L (A h) /\ ~ In (A h) T) ->
  exists (bad : list (list Z * Z)) (guess : nat -> Z -> Z), Z.of_nat (length bad) <= Z.of_nat q * (8712 * L) /\
    forall key, chacha_key key -> ccp_made key T -> forall b h, (length h <= q)%nat -> ccp_verdicts b key A h -> In true h ->
      exists i, (i < q)%nat /\ let n := s_nonce (A (repeat false i)) in
        In (n, poly_r key n) bad \/ (~ In n (map s_nonce T) /\ poly_s key n = guess i (poly_r key n)).
Proof.
  intros T A L q HT HA.
  destruct (collect (B := list Z * Z) (G := Z -> Z) q (8712 * L)
    (fun i bad g => forall key, chacha_key key -> ccp_made key T -> forall b out r, let a := A (repeat false i) in
      ccp_decrypt b key (s_ct a) (s_nonce a) (s_data a) (s_tag a) out = Ok (r, true) ->
      In (s_nonce a, poly_r key (s_nonce a)) bad \/
      (~ In (s_nonce a) (map s_nonce T) /\ poly_s key (s_nonce a) = g (poly_r key (s_nonce a)))) (fun x => x)) as (bad & g & Lb & Hb).
  - intros i. destruct (HA (repeat false i)) as [Ha Na]. exact (ccp_one T L (A (repeat false i)) HT Ha Na).
  - intros i bad bad' g Inc H key Hk HM b out r a Ea. destruct (H key Hk HM b out r Ea) as [I|R]; [left; now apply Inc|now right].
  - exists bad, g. split; [exact Lb|]. intros key Hk HM b h Lh V I.
    destruct (first_true h I) as (i & Li & Ei & Fi). destruct (V i true Ei) as (out & r & Ea). rewrite Fi in Ea.
    exists i. split; [lia|]. exact (Hb i ltac:(lia) key Hk HM b out r Ea).
Qed.
Print Assumptions C91_ccp_attempts.

(** The hypotheses hold for an attacker who has seen one message, fails once and then guesses the right tag. *)
Definition ex_strategy (right wrong : list Z) : strategy := fun h => Sealed T_Gcm.ex_nonce [] [6] (match h with [] => wrong | _ => right end).
Example C91_ex : exists (k : bc_state Aes128) (T : list sealed) (A : strategy), block_cipher Aes128 k /\ T <> [] /\ gcm_made Aes128 k T /\
  (forall s, In s T -> gcm_sealed 2 s) /\ (forall h, gcm_sealed 2 (A h) /\ ~ In (A h) T) /\ gcm_verdicts Aes128 Checked k A [false; true].
Proof.
  destruct gcm_new_ok as [k Ek]. pose proof (aes128_cipher k Ek) as HE.
  assert (Hn : gcm_nonce T_Gcm.ex_nonce) by ok_bytes.
  assert (H6 : gcm_message [6]) by (split; [apply BaseFacts.bytesb_spec; reflexivity|reflexivity]).
  assert (H5 : gcm_message [5]) by (split; [apply BaseFacts.bytesb_spec; reflexivity|reflexivity]).
  assert (Hd : gcm_data []) by (split; [constructor|reflexivity]).
  destruct (C32_decrypt_accepts_exactly Aes128 k HE T_Gcm.ex_nonce [] [6] Hn Hd H6) as ([Lt Bt] & D & F & _).
  destruct (C32_decrypt_accepts_exactly Aes128 k HE T_Gcm.ex_nonce [] [5] Hn Hd H5) as (_ & _ & _ & E5).
  set (t6 := gcm_auth_tag (bc_permute Aes128 k) T_Gcm.ex_nonce [] [6]) in *.
  set (t5 := gcm_auth_tag (bc_permute Aes128 k) T_Gcm.ex_nonce [] [5]) in *.
  exists k, [Sealed T_Gcm.ex_nonce [] [5] t5], (ex_strategy t6 []). split; [exact HE|]. split; [discriminate|]. split; [|split; [|split] ].
  - intros s [<-|[] ]. exists Checked, (gcm_ciphertext (bc_permute Aes128 k) T_Gcm.ex_nonce [5]), [0]. split; [|apply E5; [reflexivity|right; discriminate] ].
    apply (P_Gcm.gcm_ct_bytes Aes128 k HE T_Gcm.ex_nonce (proj1 Hn) (proj2 Hn)), H5.
  - intros s [<-|[] ]. split; [exact (proj2 Hn)|]. split; [exact Hd|]. split; [exact H5|]. discriminate.
  - intros h. split; [|intros [H|[] ]; discriminate H]. split; [exact (proj2 Hn)|]. split; [exact Hd|]. split; [exact H6|]. discriminate.
  - intros [|[|[|i] ] ] v; cbn [nth_error]; intros H; try discriminate H; injection H as <-; exists [0]; eexists;
      cbn [firstn ex_strategy s_ct s_nonce s_data s_tag].
    + apply F; [reflexivity|]. clearbody t6. intros <-. discriminate Lt.
    + apply D; [reflexivity|right; discriminate].
Qed.
