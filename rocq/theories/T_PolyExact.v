(** C21, exactly: which tag ChaCha20-Poly1305 returns and accepts, for every input. *)
From Coq Require Import String.
From Verif Require Import Base Hex M_ChaCha20 M_Poly1305 S_ChaCha S_PolyLazy T_Ccp.
From Verif Require P_ChaCha P_Ccp P_Poly1305 P_PolyExact.

(** The number the program holds when it starts the final reduction. *)
Definition held (key nonce aad ciphertext : list Z) : Z :=
  lazy_acc (clamp (le_decode (firstn 16 (one_time_key key nonce)))) (mac_data aad ciphertext).

Lemma program_tag_facts key nonce data ct : chacha_key key -> chacha_nonce nonce -> is_slice data -> is_slice ct ->
  (forall b, aead_tag b (P_ChaCha.chacha_words key nonce) ct data = Ok (program_tag key nonce data ct)) /\
  (program_tag key nonce data ct = rfc8439_tag key nonce data ct <-> held key nonce data ct < P1305) /\
  0 <= held key nonce data ct < 2 ^ 130 + 2 ^ 22 /\ held key nonce data ct mod P1305 = rfc8439_acc key nonce data ct.
Proof.
  intros [Hk Bk] [Hn Bn] [Bd Ld] [Bc Lc]. unfold aead_tag. rewrite (P_Ccp.otk_eq key nonce Hk Hn Bk Bn).
  destruct (P_Ccp.otk_ok key nonce Hk Hn) as [B L].
  pose proof (fun b => P_PolyExact.poly1305_exact b (one_time_key key nonce) data ct B L Bd Bc Ld Lc) as X. cbv zeta in X.
  unfold held, program_tag, rfc8439_tag, faulty_tag, rfc8439_acc in *.
  destruct (X Checked) as (R & M & _).
  assert (F := P_Poly1305.faulty_first (poly1305_acc (clamp (le_decode (firstn 16 (one_time_key key nonce)))) (mac_data data ct))
                 (le_decode (skipn 16 (one_time_key key nonce)))).
  split; [intros b; destruct (X b) as (_ & _ & E); exact E|]. split; [|split; [exact R|exact M] ].
  clear X M R Ld Lc. unfold poly1305_mac.
  destruct (Z.ltb_spec (lazy_acc (clamp (le_decode (firstn 16 (one_time_key key nonce)))) (mac_data data ct)) P1305) as [H|H].
  - split; intros; [exact H|reflexivity].
  - split; [intros Q; exfalso; exact (F Q)|intros Q; exfalso; clear -H Q; lia].
Qed.

Theorem C21_tag_exactly : forall b key nonce data msg out c t,
  chacha_key key -> chacha_nonce nonce -> is_slice data -> is_slice msg ->
  ccp_encrypt b key msg nonce data out = Ok (c, t) ->
  t = program_tag key nonce data c /\
  (t = rfc8439_tag key nonce data c <-> held key nonce data c < P1305) /\
  (* the number held is one of the at most two representatives of the RFC's accumulator in its range *)
  0 <= held key nonce data c < P1305 + (2 ^ 22 + 5) /\ held key nonce data c mod P1305 = rfc8439_acc key nonce data c.
Proof.
  intros b key nonce data msg out c t Hk Hn Hd Hm E.
  destruct Hk as [Lk Bk], Hn as [Ln Bn], Hd as [Bd Ld], Hm as [Bm Lm].
  destruct (Nat.eq_dec (length msg) (length out)) as [Hl|Hl].
  2:{ rewrite P_Ccp.encrypt_bad_args in E by auto. discriminate. }
  destruct (P_Ccp.encrypt_ok key nonce Lk Ln Bk Bn msg data Bm Bd Ld Lm) as (t1 & _ & _ & _ & T & E1).
  assert (Hlim : b = Unchecked \/ len msg <= checked_limit).
  { destruct b; [right|left; reflexivity]. destruct (Z.le_gt_cases (len msg) checked_limit) as [|Hgt]; [assumption|].
    rewrite P_Ccp.encrypt_panic in E by (try assumption; try exact Hgt; congruence). discriminate. }
  rewrite E1 in E by (try assumption; congruence). injection E as <- <-.
  destruct (program_tag_facts key nonce data (P_Ccp.crypt key nonce msg)) as (F & I & R & M);
    [split; assumption|split; assumption|split; assumption|split; [apply P_Ccp.crypt_bytes, Bm|unfold len in *; now rewrite P_Ccp.crypt_length]|].
  specialize (T b). rewrite (F b) in T. injection T as <-.
  split; [reflexivity|]. split; [exact I|]. split; [unfold P1305; clear -R; lia|exact M].
Qed.
Print Assumptions C21_tag_exactly.

(** The receiving side: the one tag that is accepted, and when a message sealed as RFC 8439 says is rejected. *)
Theorem C21_accepted_exactly : forall b key nonce data ct tag out,
  chacha_key key -> chacha_nonce nonce -> is_slice data -> is_slice ct ->
  length out = length ct -> len ct <= checked_limit ->
  ((exists m, ccp_decrypt b key ct nonce data tag out = Ok (m, true)) <-> tag = program_tag key nonce data ct) /\
  (ccp_decrypt b key ct nonce data (rfc8439_tag key nonce data ct) out = Ok (out, false) <-> P1305 <= held key nonce data ct).
Proof.
  intros b key nonce data ct tag out Hk Hn Hd Hc Ho Hlim.
  destruct (program_tag_facts key nonce data ct Hk Hn Hd Hc) as (F & I & _ & _).
  destruct Hk as [Lk Bk], Hn as [Ln Bn], Hd as [Bd Ld], Hc as [Bc Lc].
  destruct (P_Ccp.decrypt_ok key nonce Lk Ln Bk Bn ct data Bc Bd Ld Lc) as (t & _ & _ & E & DT & DF).
  assert (Et : t = program_tag key nonce data ct).
  { specialize (E b out Ho (or_intror Hlim)).
    destruct (C21_tag_exactly b key nonce data (P_Ccp.crypt key nonce ct) out ct t) as (X & _);
      [split; assumption|split; assumption|split; assumption|split; [apply P_Ccp.crypt_bytes, Bc|unfold len in *; now rewrite P_Ccp.crypt_length]|exact E|exact X]. }
  assert (Dec : forall u : list Z, {u = t} + {u <> t}) by (intros; apply (list_eq_dec Z.eq_dec)).
  split.
  - split.
    + intros [m D]. destruct (Dec tag) as [Q|Q]; [now rewrite Q|]. rewrite (DF b out tag Ho Q) in D. discriminate.
    + intros ->. rewrite <- Et. eexists. apply DT; [exact Ho|right; exact Hlim].
  - rewrite <- Et in I. split.
    + intros D. destruct (Z.le_gt_cases P1305 (held key nonce data ct)) as [|Hlt]; [assumption|exfalso].
      apply (proj2 I) in Hlt. rewrite <- Hlt, (DT b out Ho (or_intror Hlim)) in D. discriminate.
    + intros Hge. apply DF; [exact Ho|]. intros Q. symmetry in Q. apply (proj1 I) in Q. clear -Hge Q. lia.
Qed.
Print Assumptions C21_accepted_exactly.

(** Both sides of the dividing line are reached. *)
Example C21_exactly_ex : held ex_key ex_nonce (s2b "hdr") [1; 2; 3] < P1305 /\ P1305 <= held ex_key ex_nonce bad_data [].
Proof. split; [apply Z.ltb_lt|apply Z.leb_le]; vm_compute; reflexivity. Qed.
