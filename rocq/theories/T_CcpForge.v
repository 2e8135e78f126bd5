(** C95: forgeries of ChaCha20-Poly1305 when ChaCha20's blocks are uniformly random. *)
From Coq Require Import ZArith List Lia.
From Verif Require Import Base M_ChaCha20 M_Poly1305 S_ChaCha T_Ccp T_CcpPrivacy S_GcmPrp S_CcpAuth S_CcpForge.
From Verif Require P_ChaCha P_CcpAuth P_CcpForge P_GcmPrp P_GcmForge BaseFacts.
From mathcomp Require Import all_ssreflect all_fingroup all_algebra.
Import ListNotations.
Import Order.TTheory GRing.Theory Num.Theory.

(** With the blocks of a key, the answers of the game are those of [encrypt], and an attempt is accepted exactly when [decrypt]
    with that key gives [true]. *)
Theorem C95_game_is_aead : forall key, chacha_key key -> let F := fun c nonce => chacha20_block key c nonce in
  good_blocks F /\
  (forall b nonce data msg out, chacha_nonce nonce -> is_slice data -> is_slice msg -> length out = length msg -> Z.le (len msg) checked_limit ->
     ccp_encrypt b key msg nonce data out = Ok (seal the_mac F nonce data msg)) /\
  (forall b a out, chacha_nonce (a_nonce a) -> is_slice (a_data a) -> is_slice (a_ct a) -> length out = length (a_ct a) ->
     b = Unchecked \/ Z.le (len (a_ct a)) checked_limit ->
     exists r, ccp_decrypt b key (a_ct a) (a_nonce a) (a_data a) (a_tag a) out = Ok (r, accepted F a)).
Proof.
  move=> key Hk F. split; [|split].
  - move=> c nonce Hc Hn. split; [exact: P_ChaCha.block_length|exact: P_ChaCha.block_bytes].
  - exact: encrypt_seal.
  - exact: P_CcpAuth.decrypt_accepted.
Qed.
Print Assumptions C95_game_is_aead.

(** Every source of blocks in the probability is a good one, and two different ones differ at some counter and nonce. *)
Theorem C95_sources : (forall g : {ffun block -> oblock}, good_blocks (as_blocks g)) /\
  (forall g g' : {ffun block -> oblock}, (forall c nonce, Z.le Z0 c /\ Z.lt c (Z.pow (Zpos 2) (Zpos 32)) -> chacha_nonce nonce ->
     as_blocks g' c nonce = as_blocks g c nonce) -> g' = g) /\
  (forall F, good_blocks F -> exists g : {ffun block -> oblock}, forall c nonce, Z.le Z0 c /\ Z.lt c (Z.pow (Zpos 2) (Zpos 32)) -> chacha_nonce nonce ->
     as_blocks g c nonce = F c nonce).
Proof.
  split; first exact: P_CcpForge.as_blocks_good. split; first by move=> g g'; exact: P_CcpForge.as_blocks_inj.
  move=> F HF.
  exists [ffun x => P_CcpForge.oblock_of (F (le_decode (firstn 4 (bytes_of x))) (skipn 4 (bytes_of x)))] => c nonce Hc Hn.
  rewrite /as_blocks -/(P_CcpForge.input_of c nonce) ffunE P_GcmPrp.bytes_of_K; last exact: P_CcpForge.input_block.
  rewrite P_CcpForge.input_counter // P_CcpForge.input_nonce. apply: P_CcpForge.obytes_K. exact: HF.
Qed.
Print Assumptions C95_sources.

Lemma split3 (x : rat) (a b c d : nat) : d = (a + b + c)%N -> (x ^+ d = x ^+ a * x ^+ b * x ^+ c)%R.
Proof. by move=> ->; rewrite !exprD. Qed.

Lemma bound_rat (S m B : nat) : (S * #|block| <= m * P_CcpForge.bound B * #|{ffun block -> oblock}|)%N ->
  (S%:R / #|{ffun block -> oblock}|%:R <= (m * B)%N%:R * 33%:R ^+ 2 / 2%:R ^+ 103 :> rat)%R.
Proof.
  move=> H.
  have E8 : ((Z.to_nat (Z.mul (Zpos 8712) (Z.of_nat B)))%:R = B%:R * (33%:R ^+ 2 * 2%:R ^+ 3) :> rat)%R.
  { have -> : Z.to_nat (Z.mul (Zpos 8712) (Z.of_nat B)) = (B * (33 * 33 * (2 * 2 * 2)))%N by rewrite /muln /muln_rec; lia.
    by rewrite !natrM !exprS !expr0 !mulr1 !mulrA. }
  have Ew := P_GcmPrp.card_block.
  have Ed := split3 (2%:R)%R 3%N 22%N 103%N 128%N erefl.
  have Ef := P_CcpForge.fibre_eq. rewrite Ed -Ef in Ew. clear Ed Ef.
  have W3 : (0 < 2%:R ^+ 3 :> rat)%R by apply: exprn_gt0; rewrite ltr0n.
  have W103 : (0 < 2%:R ^+ 103 :> rat)%R by apply: exprn_gt0; rewrite ltr0n.
  have W22 : (0 < P_CcpForge.fibre%:R :> rat)%R by rewrite ltr0n; exact: P_CcpForge.fibre_gt0.
  have F0 : (0 < #|{ffun block -> oblock}|%:R :> rat)%R by rewrite ltr0n; apply: (P_GcmForge.type_gt0 [ffun=> P_CcpForge.oblock_of nil]).
  rewrite /P_CcpForge.bound in H.
  have {}H : (S%:R * #|block|%:R <= m%:R * ((B%:R * (33%:R ^+ 2 * 2%:R ^+ 3)) * P_CcpForge.fibre%:R) * #|{ffun block -> oblock}|%:R :> rat)%R
    by rewrite -E8 -!natrM ler_nat.
  rewrite Ew in H. clear Ew E8.
  move: W3 W103 W22 F0 H. set w3 := (2%:R ^+ 3)%R. set w103 := (2%:R ^+ 103)%R. set w22 := (P_CcpForge.fibre%:R)%R.
  set f := (#|{ffun block -> oblock}|%:R)%R. set q := (33%:R ^+ 2)%R. clearbody w3 w103 w22 f q.
  move=> W3 W103 W22 F0 H.
  rewrite (ler_pdivr_mulr _ _ F0) mulrAC (ler_pdivl_mulr _ _ W103).
  have W : (0 < w3 * w22)%R by apply: mulr_gt0.
  rewrite -(ler_pmul2r W). rewrite natrM.
  have -> : (S%:R * w103 * (w3 * w22) = S%:R * (w3 * w22 * w103))%R by rewrite -!mulrA; congr (_ * _)%R; rewrite mulrC mulrA.
  have -> : (m%:R * B%:R * q * f * (w3 * w22) = m%:R * (B%:R * (q * w3) * w22) * f)%R.
  { rewrite -!mulrA. congr (_ * (_ * (_ * _)))%R. rewrite mulrC. by rewrite -!mulrA. }
  exact: H.
Qed.

(** ** C95: an attacker that never repeats a nonce sees [n] encryptions, under blocks drawn uniformly at random, and then makes
    up to [m] attempts, none of them a pair it was given, of at most [B] blocks for Poly1305 each.  One of them is accepted
    with a probability of at most m B 8712 / 2^106.  (8712 = 8 * 33^2.) *)
Theorem C95_forgery : forall A G n m B, admissible n A -> forger_ok n m (Z.of_nat B) A G ->
  (pr_forge A G n <= (m * B)%N%:R * 33%:R ^+ 2 / 2%:R ^+ 103)%R.
Proof. move=> A G n m B HA HG. apply: bound_rat. exact: (P_CcpForge.any_bound HA HG). Qed.
Print Assumptions C95_forgery.
(** Ten queries of the attacker above, then the first tag is tried on other data. *)
Definition ex_forger : forger := fun tr =>
  [{| a_nonce := be_encode 12 Z0; a_data := [Zpos 9]; a_ct := [Zpos 1; Zpos 2; Zpos 3]; a_tag := snd (List.nth 0 tr (nil, nil)) |}].
Lemma ex_forger_ok : forger_ok 10 1 (Z.of_nat 3) ex_attacker ex_forger.
Proof.
  split.
  - move=> tr _. rewrite /ex_attacker. cbn [q_left q_data]. case: Z.even; vm_compute; discriminate.
  - move=> tr _. split; first by apply: le_n. move=> a [<-|//]. cbn [a_nonce a_data a_ct].
    split; first by split; [exact: BaseFacts.be_encode_length|exact: BaseFacts.be_encode_bytes].
    split; first by ok_bytes. split; first by ok_bytes. split; first by vm_compute; discriminate.
    move=> [i [_ [_ [_ E]]]]. move: E. rewrite /ex_attacker. cbn [q_data a_data]. case: Z.even; discriminate.
Qed.
Example C95_forgery_ex : (pr_forge ex_attacker ex_forger 10 <= (1 * 3)%N%:R * 33%:R ^+ 2 / 2%:R ^+ 103)%R.
Proof.
  have HA : admissible 10 ex_attacker by move=> tr Ht; apply: (proj1 C95_ex); lia.
  exact: (C95_forgery ex_attacker ex_forger 10 1 3 HA ex_forger_ok).
Qed.
