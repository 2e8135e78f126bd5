(** Property theorem C96: how rarely ChaCha20-Poly1305 departs from RFC 8439. *)
From Coq Require Import String.
From Verif Require Import Base Hex M_ChaCha20 M_Poly1305 S_ChaCha S_PolyLazy T_Ccp T_Forge T_PolyExact.
From Verif Require P_Forge2 P_PolyRare BaseFacts.

(** Fix the associated data and the ciphertext.  There is one set of at most (2^22+5) * blocks numbers (out of the 2^106 the point r can be)
    such that, for every key and nonce outside it, both directions follow RFC 8439: encryption never returns this ciphertext with a tag
    other than the RFC's, and decryption accepts exactly the RFC's tag. *)
Theorem C96_wrong_tags_are_rare : forall data ct, is_slice data -> is_slice ct ->
  exists bad : list Z,
    Z.of_nat (length bad) <= (2 ^ 22 + 5) * hash_blocks data ct /\
    forall key nonce, chacha_key key -> chacha_nonce nonce -> ~ In (poly_r key nonce) bad ->
      (forall b msg out t, is_slice msg -> ccp_encrypt b key msg nonce data out = Ok (ct, t) -> t = rfc8439_tag key nonce data ct) /\
      (forall b tag out, length out = length ct -> len ct <= checked_limit ->
        ((exists m, ccp_decrypt b key ct nonce data tag out = Ok (m, true)) <-> tag = rfc8439_tag key nonce data ct)).
Proof.
  intros data ct Hd Hc.
  destruct (P_PolyRare.rare data ct (proj1 Hd) (proj1 Hc)) as (bad & Lb & Hb). exists bad. split.
  - unfold hash_blocks. rewrite <- P_Forge2.macb_length. exact Lb.
  - intros key nonce Hk Hn NI.
    destruct (program_tag_facts key nonce data ct Hk Hn Hd Hc) as (_ & I & R & M).
    assert (Ev : rfc8439_acc key nonce data ct = P_Forge2.acc (poly_r key nonce) (P_Forge2.macb data ct)).
    { unfold rfc8439_acc, poly1305_acc. rewrite P_Forge2.mac_chunks. unfold poly_r, P_Forge2.acc, P_Forge2.coef. exact eq_refl. }
    assert (Hlt : held key nonce data ct < P1305).
    { destruct (Z.lt_ge_cases (held key nonce data ct) P1305) as [|Hge]; [assumption|exfalso]. apply NI. apply Hb; [apply P_Forge2.clamp_range|].
      rewrite <- Ev, <- M. set (h := held key nonce data ct) in *. clearbody h. clear -R Hge.
      replace h with (h - P1305 + 1 * P1305) by ring. rewrite Z.mod_add by (unfold P1305; lia).
      rewrite Z.mod_small; unfold P1305 in *; lia. }
    pose proof (proj2 I Hlt) as EQ. split.
    + intros b msg out t Hm E. destruct (C21_tag_exactly b key nonce data msg out ct t Hk Hn Hd Hm E) as (T & _). rewrite T. exact EQ.
    + intros b tag out Ho Hlim. rewrite <- EQ. exact (proj1 (C21_accepted_exactly b key nonce data ct tag out Hk Hn Hd Hc Ho Hlim)).
Qed.
Print Assumptions C96_wrong_tags_are_rare.
(** The set is not always empty: for [bad_data] and the empty message it contains the point of [ex_key], [ex_nonce]. *)
Example C96_ex : is_slice bad_data /\ chacha_key ex_key /\ chacha_nonce ex_nonce /\ hash_blocks bad_data [] = 3 /\
  forall bad, (forall key nonce, chacha_key key -> chacha_nonce nonce -> ~ In (poly_r key nonce) bad ->
      forall tag, (exists m, ccp_decrypt Checked key [] nonce bad_data tag [] = Ok (m, true)) <-> tag = rfc8439_tag key nonce bad_data []) ->
    In (poly_r ex_key ex_nonce) bad.
Proof.
  assert (Hs : is_slice bad_data) by (split; [apply BaseFacts.bytesb_spec; reflexivity|apply Z.ltb_lt; reflexivity]).
  assert (H0 : is_slice []) by (split; [apply BaseFacts.bytesb_spec; reflexivity|apply Z.ltb_lt; reflexivity]).
  assert (Hk : chacha_key ex_key) by (split; [reflexivity|apply BaseFacts.bytesb_spec; reflexivity]).
  assert (Hn : chacha_nonce ex_nonce) by (split; [reflexivity|apply BaseFacts.bytesb_spec; reflexivity]).
  split; [exact Hs|]. split; [exact Hk|]. split; [exact Hn|]. split; [exact eq_refl|]. intros bad H.
  destruct (in_dec Z.eq_dec (poly_r ex_key ex_nonce) bad) as [|NI]; [assumption|exfalso].
  pose proof (H ex_key ex_nonce Hk Hn NI (rfc8439_tag ex_key ex_nonce bad_data [])) as [_ H1]. destruct (H1 eq_refl) as [m Em].
  assert (Hlim : len (@nil Z) <= checked_limit) by (apply Z.leb_le; exact eq_refl).
  pose proof (proj2 (C21_accepted_exactly Checked ex_key ex_nonce bad_data [] [] [] Hk Hn Hs H0 eq_refl Hlim)) as X.
  rewrite (proj2 X (proj2 C21_exactly_ex)) in Em. discriminate.
Qed.
