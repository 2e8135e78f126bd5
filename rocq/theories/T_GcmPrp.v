(** C99: privacy of GCM when the block cipher is a random permutation, with the exact birthday loss. *)
From Coq Require Import ZArith List Lia.
From Verif Require Import Base M_Aes M_Gcm S_Gcm S_Aes T_Gcm T_Forge T_GcmPrivacy S_GcmPrp S_GcmAuth S_GcmForge.
From Verif Require P_GcmExt P_GcmPrp P_GcmForge BaseFacts T_Aes.
From mathcomp Require Import all_ssreflect all_fingroup all_algebra.
Import ListNotations.
Import Order.TTheory GRing.Theory Num.Theory.

(** The blocks of the specification are the sixteen-byte strings, and there are 2^128 of them. *)
Theorem C99_blocks : (forall x, is_block (bytes_of x) /\ block_of (bytes_of x) = x) /\
  (forall l, is_block l -> bytes_of (block_of l) = l) /\ (#|block|%:R = 2%:R ^+ 128 :> rat)%R.
Proof.
  split; first by move=> x; split; [exact: P_GcmPrp.bytes_of_block|exact: P_GcmPrp.block_of_K].
  split; [exact: P_GcmPrp.bytes_of_K|exact: P_GcmPrp.card_block].
Qed.
Print Assumptions C99_blocks.

(** ** C99: an attacker that chooses its queries adaptively and never repeats a nonce, and for whose queries at most [s] blocks
    are enciphered, tells the encryptions of the left messages from those of the right ones under a uniformly random
    permutation with an advantage of at most s(s-1) / 2^128. *)
Theorem C99_random_permutation : forall b A D n s, admissible n A ->
  (forall tr, length tr = n -> (blocks_used A tr n <= s)%coq_nat) ->
  (`| pr_yes b true A D n - pr_yes b false A D n | <= (s * (s - 1))%N%:R / 2%:R ^+ 128)%R.
Proof. move=> b A D n s HA Hs. apply: P_GcmPrp.prp_privacy => // tr Ht. apply/ssrnat.leP. exact: Hs. Qed.
Print Assumptions C99_random_permutation.

(** ** The same experiment with [Gcm::<AesN>] and a uniformly random key *)
Definition aes_answer (E : BlockCipher) (b : build) (left : bool) (key : list Z) (q : lr_query) : reply :=
  bind (gcm_new E key) (fun k => gcm_encrypt E b k (q_msg q left) (q_nonce q) (q_data q) (repeat Z0 (length (q_msg q left)))).
Fixpoint aes_lr_run (E : BlockCipher) (b : build) (left : bool) (A : attacker) (key : list Z) (n : nat) : list reply :=
  match n with
  | O => []
  | S n => (aes_lr_run E b left A key n ++ [aes_answer E b left key (A (aes_lr_run E b left A key n))])%list
  end.
Definition key_bytes (Nk : nat) (k : (4 * Nk).-tuple 'I_256) : list Z := List.map (fun i : 'I_256 => Z.of_nat i) k.
(** The fraction of all keys for which the distinguisher says yes. *)
Definition aes_pr_yes (E : BlockCipher) (Nk : nat) (b : build) (left : bool) (A : attacker) (D : list reply -> bool) (n : nat) : rat :=
  (#|[set k : (4 * Nk).-tuple 'I_256 | D (aes_lr_run E b left A (key_bytes Nk k) n)]|%:R / #|{: (4 * Nk).-tuple 'I_256}|%:R)%R.

Lemma key_bytes_ok Nk k : length (key_bytes Nk k) = (4 * Nk)%coq_nat /\ bytes (key_bytes Nk k).
Proof.
  split.
  - rewrite /key_bytes List.map_length. exact: (size_tuple k).
  - apply Forall_forall => y /in_map_iff [i [<- _]]. have := ltn_ord i => /ssrnat.ltP. rewrite /byte_ok. lia.
Qed.
(** The real runs are the runs of the experiment with the FIPS 197 cipher in place of the permutation. *)
Theorem C99_aes_experiment : forall E Nk,
  (E, Nk) = (Aes128, 4%nat) \/ (E, Nk) = (Aes192, 6%nat) \/ (E, Nk) = (Aes256, 8%nat) ->
  forall b left A key n, admissible n A -> length key = (4 * Nk)%coq_nat -> bytes key ->
  aes_lr_run E b left A key n = lr_run b left A (Cipher Nk key) n.
Proof.
  move=> E Nk HE b l A key n HA Lk Bk.
  have [st [E1 E2]] : exists st, bc_new E key = Ok st /\ forall x, is_block x -> bc_permute E st x = Cipher Nk key x.
  { have [|st [E1 _]] := T_Aes.C25_aes_is_fips197 E Nk HE key (repeat Z0 16) Lk Bk (repeat_length _ _);
      first by exact: (proj2 P_GcmExt.zero_block).
    exists st. split; first exact: E1. move=> x [Lx Bx]. have [st' [E1' E2]] := T_Aes.C25_aes_is_fips197 E Nk HE key x Lk Bk Lx Bx.
    move: E1'. rewrite E1 => [] [] ->. exact: E2. }
  have HB : block_fn (bc_permute E st).
  { move=> x Hx. have H27 : E = Aes128 \/ E = Aes192 \/ E = Aes256 by case: HE => [[-> _]|[[-> _]|[-> _]]]; tauto.
    exact: (proj1 (T_Aes.C27_permutation E H27 key st Bk E1) x Hx). }
  rewrite -(P_GcmExt.run_ext b l A (Cipher Nk key) (bc_permute E st) n HA) //.
  - move: (n). elim=> [|i IH]; first by []. cbn [aes_lr_run lr_run]. rewrite -IH. congr (_ ++ [_])%list.
    rewrite /aes_answer /gcm_new E1. reflexivity.
  - move=> x Hx. rewrite -E2 //. exact: HB.
Qed.
Print Assumptions C99_aes_experiment.
(** So the advantage against AES-GCM is at most s(s-1)/2^128 plus what AES under a random key and a random permutation differ by
    in the two experiments. *)
Theorem C99_aes_gcm : forall E Nk b A D n s, admissible n A ->
  (forall tr, length tr = n -> (blocks_used A tr n <= s)%coq_nat) ->
  (`| aes_pr_yes E Nk b true A D n - aes_pr_yes E Nk b false A D n | <=
   `| aes_pr_yes E Nk b true A D n - pr_yes b true A D n | + `| aes_pr_yes E Nk b false A D n - pr_yes b false A D n | +
   (s * (s - 1))%N%:R / 2%:R ^+ 128)%R.
Proof.
  move=> E Nk b A D n s HA Hs. have H := C99_random_permutation b A D n s HA Hs.
  set a := aes_pr_yes _ _ _ true _ _ _. set a' := aes_pr_yes _ _ _ false _ _ _. set p := pr_yes _ true _ _ _ in H *. set p' := pr_yes _ false _ _ _ in H *.
  apply: le_trans (ler_add (lexx _) H).
  have -> : (a - a' = (a - p) + (p' - a') + (p - p'))%R by rewrite -addrA [X in (_ = _ + X)%R]addrC !subrKA.
  apply: le_trans (ler_norm_add _ _) _. apply: ler_add => //. rewrite [X in (_ <= _ + X)%R]distrC. exact: ler_norm_add.
Qed.
Print Assumptions C99_aes_gcm.

(** The attacker of C93 and ten queries, for which at most 21 blocks are enciphered. *)
Lemma ex_used tr n : (blocks_used ex_attacker tr n <= Nat.add 1 (Nat.mul 2 n))%coq_nat.
Proof.
  elim: n => [|n IH]; first by []. cbn [blocks_used].
  have H : (Nat.div (Nat.add (length (q_left (ex_attacker (firstn n tr)))) 15) 16 <= 1)%coq_nat.
  { rewrite /ex_attacker. cbn [q_left]. case: ifP => _; cbn; lia. }
  lia.
Qed.
Example C99_ex D : (`| pr_yes Checked true ex_attacker D 10 - pr_yes Checked false ex_attacker D 10 | <= (21 * 20)%N%:R / 2%:R ^+ 128)%R.
Proof.
  have HA : admissible 10 ex_attacker by move=> tr Ht; apply: ex_attacker_ok; lia.
  apply: (C99_random_permutation Checked ex_attacker D 10 21 HA). move=> tr _. exact: (ex_used tr 10).
Qed.

(** The condition on nonces is needed: an attacker that uses a nonce twice has advantage 1. *)
Definition reuse : attacker := fun tr =>
  {| q_nonce := repeat Z0 12; q_data := []; q_left := [Z0]; q_right := [match tr with [] => Z0 | _ => Zpos 1 end] |}.
Definition same_replies (tr : list reply) : bool :=
  match tr with [Ok (c, _); Ok (c', _)] => if list_eq_dec Z.eq_dec c c' then true else false | _ => false end.
Theorem C99_nonce_reuse : forall b, pr_yes b true reuse same_replies 2 = 1%R /\ pr_yes b false reuse same_replies 2 = 0%R.
Proof.
  move=> b.
  have F : forall f m, block_fn f -> (m = Z0 \/ m = Zpos 1) -> exists t,
    gcm_encrypt ideal b f [m] (repeat Z0 12) [] [Z0] = Ok ([Z.lxor m (List.nth 0 (f (counter_block (repeat Z0 12) 0)) Z0)], t).
  { move=> f m Hf Hm. have Bm : bytes [m] by case: Hm => ->; apply BaseFacts.bytesb_spec; reflexivity.
    have Hn : gcm_nonce (repeat Z0 12) by ok_bytes.
    have Hd : gcm_data [] by split; [apply BaseFacts.bytesb_spec; exact: erefl|exact: erefl].
    have Hg : gcm_message [m] by split; [exact: Bm|exact: erefl].
    have Hc : b = Unchecked \/ (Z.le (len [m]) checked_limit) by right; vm_compute; discriminate.
    have E1 := C30_gcm_is_sp800_38d ideal f Hf b (repeat Z0 12) [] [m] [Z0] Hn Hd Hg erefl Hc.
    cbv zeta in E1.
    case: (C35_counter_blocks_distinct ideal f Hf _ _ _ _ _ _ _ (proj2 Hn) (proj1 Hd) Bm E1) => L1 [N1 _].
    exists (gcm_auth_tag f (repeat Z0 12) [] (gcm_ciphertext f (repeat Z0 12) [m])). rewrite E1. congr (Ok (_, _)).
    apply: (nth_ext _ _ Z0 Z0); first exact: L1. move=> i Hi. rewrite L1 in Hi. have -> : i = 0%nat by move: Hi => /=; lia.
    rewrite (N1 0%nat) /=; last by apply: le_n. reflexivity. }
  have G : forall f l tr m, block_fn f -> (m = Z0 \/ m = Zpos 1) -> q_msg (reuse tr) l = [m] -> exists t,
    lr_answer b l f (reuse tr) = Ok ([Z.lxor m (List.nth 0 (f (counter_block (repeat Z0 12) 0)) Z0)], t).
  { move=> f l tr m Hf Hm Em. case: (F f m Hf Hm) => t Et. exists t. rewrite /lr_answer Em. exact: Et. }
  have R : forall l f, lr_run b l reuse f 2 = [lr_answer b l f (reuse []); lr_answer b l f (reuse [lr_answer b l f (reuse [])])]
    by move=> l f; exact: erefl.
  have pos : ((#|{perm block}|)%:R != 0 :> rat)%R by rewrite pnatr_eq0 -lt0n; apply/card_gt0P; exists 1%g.
  clear F. split.
  - rewrite /pr_yes. have -> : [set g : {perm block} | same_replies (lr_run b true reuse (as_cipher g) 2)] = [set: {perm block}].
    { apply/setP => g. rewrite !inE R. have Hc := @P_GcmPrp.as_cipher_block g. set a := lr_answer _ _ _ (reuse []).
      have [t Et] := G (as_cipher g) true [] Z0 Hc (or_introl erefl) erefl.
      have [t' ->] := G (as_cipher g) true [a] Z0 Hc (or_introl erefl) erefl. rewrite /a Et /same_replies. by case: list_eq_dec. }
    by rewrite cardsT divff.
  - rewrite /pr_yes. have -> : [set g : {perm block} | same_replies (lr_run b false reuse (as_cipher g) 2)] = set0.
    { apply/setP => g. rewrite !inE R. have Hc := @P_GcmPrp.as_cipher_block g. set a := lr_answer _ _ _ (reuse []).
      have [t Et] := G (as_cipher g) false [] Z0 Hc (or_introl erefl) erefl.
      have [t' ->] := G (as_cipher g) false [a] (Zpos 1) Hc (or_intror erefl) erefl. rewrite /a Et /same_replies.
      case: list_eq_dec => // H. exfalso. move: (f_equal (fun c => Z.testbit (List.nth 0 c Z0) 0) H). cbn [List.nth].
      rewrite !Z.lxor_spec. set c := Z.testbit (List.nth _ _ _) 0. clearbody c. by case: c. }
    by rewrite cards0 mul0r.
Qed.
Print Assumptions C99_nonce_reuse.

(** ** Forgeries: after queries for which at most [s] blocks are enciphered, one of at most [m] attempts that are no replays is
    accepted, under a uniformly random permutation, with a probability of at most (m B + (s+m)(s+m-1)/2) / 2^128, where no query
    and no attempt has more than [B] blocks to hash. *)
Theorem C99_forgery : forall b A F n m B s, admissible n A -> forger_ok b n m (Z.of_nat B) A F ->
  (forall tr, length tr = n -> (blocks_used A tr n <= s)%coq_nat) ->
  (pr_forge b A F n <= ((m * B)%N%:R + ((s + m) * (s + m - 1))%N%:R / 2%:R) / 2%:R ^+ 128)%R.
Proof.
  move=> b A F n m B s HA HF Hs.
  have -> : (((s + m) * (s + m - 1))%N%:R / 2%:R = (\sum_(j < s + m) j)%N%:R :> rat)%R by rewrite -P_GcmPrp.sum_double -muln2 natrM mulfK // pnatr_eq0.
  apply: P_GcmForge.forge_bound => // tr Ht. apply/ssrnat.leP. exact: Hs.
Qed.
Print Assumptions C99_forgery.
(** Ten queries of the attacker of C93, then the first tag is tried on other data. *)
Definition ex_forger : forger := fun tr =>
  [{| a_nonce := be_encode 12 Z0; a_data := [Zpos 9]; a_ct := [Zpos 1; Zpos 2; Zpos 3];
      a_tag := match tr with Ok (_, t) :: _ => t | _ => [] end |}].
Lemma ex_forger_ok b : forger_ok b 10 1 (Z.of_nat 3) ex_attacker ex_forger.
Proof.
  split.
  - move=> tr _. cbv zeta. rewrite /ex_attacker. cbn [q_left q_data]. case: ifP => _; split; try (right; vm_compute); discriminate.
  - move=> tr _. split; first by apply: le_n. move=> a [<-|//]. cbn [a_nonce a_data a_ct].
    split; first by split; [exact: BaseFacts.be_encode_length|exact: BaseFacts.be_encode_bytes].
    split; first by ok_bytes. split; first by ok_bytes. split; first by discriminate.
    move=> [i [_ [_ [_ E]]]]. move: E. rewrite /ex_attacker. cbn [q_data a_data]. case: ifP => _; discriminate.
Qed.
Example C99_forgery_ex b : (pr_forge b ex_attacker ex_forger 10 <= ((1 * 3)%N%:R + (22 * 21)%N%:R / 2%:R) / 2%:R ^+ 128)%R.
Proof.
  have HA : admissible 10 ex_attacker by move=> tr Ht; apply: ex_attacker_ok; lia.
  apply: (C99_forgery b ex_attacker ex_forger 10 1 3 21 HA (ex_forger_ok b)). move=> tr _. exact: (ex_used tr 10).
Qed.
