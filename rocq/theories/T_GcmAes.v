(** C99: forgeries against [Gcm::<AesN>] with a random key. *)
From Coq Require Import ZArith List Lia.
From Verif Require Import Base M_Aes M_Gcm S_Gcm S_Aes T_Gcm T_Forge T_GcmPrivacy S_GcmPrp S_GcmAuth S_GcmForge T_GcmPrp.
From Verif Require P_GcmExt P_GcmAuth P_GcmPrp BaseFacts T_Aes.
From mathcomp Require Import all_ssreflect all_fingroup all_algebra.
Import ListNotations.
Import Order.TTheory GRing.Theory Num.Theory.

(** [Gcm::<AesN>::new(key).decrypt] gives [true] on the attempt. *)
Definition aes_accepts (E : BlockCipher) (b : build) (key : list Z) (a : attempt) : bool :=
  match bind (gcm_new E key) (fun k => gcm_decrypt E b k (a_ct a) (a_nonce a) (a_data a) (a_tag a) (repeat Z0 (length (a_ct a)))) with
  | Ok (_, ok) => ok
  | Panic => false
  end.
(** The fraction of all keys for which one of the attempts is accepted. *)
Definition aes_forge (E : BlockCipher) (Nk : nat) (b : build) (A : attacker) (F : forger) (n : nat) : rat :=
  (#|[set k : (4 * Nk).-tuple 'I_256 | existsb (aes_accepts E b (key_bytes Nk k)) (F (aes_lr_run E b true A (key_bytes Nk k) n))]|%:R / #|{: (4 * Nk).-tuple 'I_256}|%:R)%R.

(** Acceptance is that of the experiment with the FIPS 197 cipher in place of the permutation. *)
Theorem C99_aes_accepts : forall E Nk,
  (E, Nk) = (Aes128, 4%nat) \/ (E, Nk) = (Aes192, 6%nat) \/ (E, Nk) = (Aes256, 8%nat) ->
  forall b key a, length key = (4 * Nk)%coq_nat -> bytes key ->
  gcm_nonce (a_nonce a) -> gcm_data (a_data a) -> gcm_message (a_ct a) -> b = Unchecked \/ Z.le (len (a_ct a)) checked_limit ->
  aes_accepts E b key a = accepted b (Cipher Nk key) a.
Proof.
  move=> E Nk HE b key a Lk Bk Hn Hd Hc Hl.
  have [st [E1 E2]] : exists st, bc_new E key = Ok st /\ forall x, is_block x -> bc_permute E st x = Cipher Nk key x.
  { have [|st [E1 _]] := T_Aes.C25_aes_is_fips197 E Nk HE key (repeat Z0 16) Lk Bk (repeat_length _ _);
      first by exact: (proj2 P_GcmExt.zero_block).
    exists st. split; first exact: E1. move=> x [Lx Bx]. have [st' [E1' E2]] := T_Aes.C25_aes_is_fips197 E Nk HE key x Lk Bk Lx Bx.
    move: E1'. rewrite E1 => [] [] ->. exact: E2. }
  have HB : block_fn (bc_permute E st).
  { move=> x Hx. have H27 : E = Aes128 \/ E = Aes192 \/ E = Aes256 by case: HE => [[-> _]|[[-> _]|[-> _]]]; tauto.
    exact: (proj1 (T_Aes.C27_permutation E H27 key st Bk E1) x Hx). }
  have HC : block_fn (Cipher Nk key) by move=> x Hx; rewrite -E2 //; exact: HB.
  have K f : block_fn f -> accepted b f a = true <-> P_GcmAuth.right_tag f a.
  { move=> Hf. have [_ [Y [N _]]] := C32_decrypt_accepts_exactly ideal f Hf (a_nonce a) (a_data a) (a_ct a) Hn Hd Hc.
    rewrite /accepted /P_GcmAuth.right_tag. case: (list_eq_dec Z.eq_dec (a_tag a) (gcm_auth_tag f (a_nonce a) (a_data a) (a_ct a))) => [Et|Nt].
    - rewrite Et (Y b _ (repeat_length _ _) Hl). by [].
    - rewrite (N b _ _ (repeat_length _ _) Nt). split=> //. }
  have -> : aes_accepts E b key a = accepted b (bc_permute E st) a by rewrite /aes_accepts /gcm_new E1.
  have R : P_GcmAuth.right_tag (Cipher Nk key) a <-> P_GcmAuth.right_tag (bc_permute E st) a.
  { apply: P_GcmAuth.right_ext => //; symmetry; apply: E2; [exact: P_GcmExt.zero_block|exact: P_GcmExt.J0_block]. }
  apply/idP/idP => H.
  - apply/(K _ HC)/R. exact/(K _ HB).
  - apply/(K _ HB)/R. exact/(K _ HC).
Qed.
Print Assumptions C99_aes_accepts.

(** The fractions for keys are those of the games with the FIPS 197 cipher in place of the permutation. *)
Theorem C99_aes_game : forall E Nk,
  (E, Nk) = (Aes128, 4%nat) \/ (E, Nk) = (Aes192, 6%nat) \/ (E, Nk) = (Aes256, 8%nat) ->
  forall b A n, admissible n A -> let C (k : (4 * Nk).-tuple 'I_256) := Cipher Nk (key_bytes Nk k) in
  (forall left D, aes_pr_yes E Nk b left A D n = #|[set k : (4 * Nk).-tuple 'I_256 | D (lr_run b left A (C k) n)]|%:R / #|{: (4 * Nk).-tuple 'I_256}|%:R)%R /\
  (forall m B F, forger_ok b n m B A F ->
     (forall tr a, length tr = n -> In a (F tr) -> b = Unchecked \/ Z.le (len (a_ct a)) checked_limit) ->
     aes_forge E Nk b A F n =
       #|[set k : (4 * Nk).-tuple 'I_256 | existsb (accepted b (C k)) (F (lr_run b true A (C k) n))]|%:R / #|{: (4 * Nk).-tuple 'I_256}|%:R)%R.
Proof.
  move=> E Nk HE b A n HA C.
  have X left k : aes_lr_run E b left A (key_bytes Nk k) n = lr_run b left A (C k) n.
  { have [Lk Bk] := key_bytes_ok Nk k. exact: C99_aes_experiment. }
  split.
  - move=> l D. rewrite /aes_pr_yes. set S := [set k | _]. set S' := [set k | _]. have -> : S = S'; last by [].
    apply/setP => k. by rewrite !inE X.
  - move=> m B F HF HL. rewrite /aes_forge. set S := [set k | _]. set S' := [set k | _]. have -> : S = S'; last by [].
    apply/setP => k. rewrite !inE X. have [Lk Bk] := key_bytes_ok Nk k.
    have R : length (lr_run b true A (C k) n) = n by exact: run_length.
    have [_ H] := proj2 HF _ R. have {}HL := fun a => HL _ a R. move: (F _) H HL. elim=> [|a l IH] H HL; first by [].
    cbn [existsb]. rewrite IH; [|by move=> a' Ia; apply: H; right|by move=> a' Ia; apply: HL; right].
    have [Hn [Hd [Hc _]]] := H a (or_introl erefl).
    by rewrite (C99_aes_accepts E Nk HE b (key_bytes Nk k) a Lk Bk Hn Hd Hc (HL a (or_introl erefl))).
Qed.
Print Assumptions C99_aes_game.

(** So a forgery against AES-GCM succeeds at most as often as against a random permutation, plus what AES under a random key and a
    random permutation differ by in this game. *)
Theorem C99_aes_forgery : forall E Nk b A F n m B s, admissible n A -> forger_ok b n m (Z.of_nat B) A F ->
  (forall tr, length tr = n -> (blocks_used A tr n <= s)%coq_nat) ->
  (aes_forge E Nk b A F n <= `| aes_forge E Nk b A F n - pr_forge b A F n | +
    ((m * B)%N%:R + ((s + m) * (s + m - 1))%N%:R / 2%:R) / 2%:R ^+ 128)%R.
Proof.
  move=> E Nk b A F n m B s HA HF Hs. have H := C99_forgery b A F n m B s HA HF Hs.
  set w := ((_ + _) / _)%R in H *. clearbody w. set r := aes_forge _ _ _ _ _ _. set p := pr_forge _ _ _ _ in H *.
  apply: le_trans (ler_add (lexx _) H). have {1}-> : r = ((r - p) + p)%R by rewrite subrK.
  apply: ler_add => //. exact: ler_norm.
Qed.
Print Assumptions C99_aes_forgery.
Example C99_aes_forgery_ex b : (aes_forge Aes256 8 b ex_attacker ex_forger 10 <= `| aes_forge Aes256 8 b ex_attacker ex_forger 10 - pr_forge b ex_attacker ex_forger 10 | +
    ((1 * 3)%N%:R + ((21 + 1) * (21 + 1 - 1))%N%:R / 2%:R) / 2%:R ^+ 128)%R.
Proof.
  have HA : admissible 10 ex_attacker by move=> tr Ht; apply: ex_attacker_ok; lia.
  apply: (C99_aes_forgery Aes256 8 b ex_attacker ex_forger 10 1 3 21 HA (ex_forger_ok b)). move=> tr _. exact: (ex_used tr 10).
Qed.
