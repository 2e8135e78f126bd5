(** C95: what an attacker's chances against ChaCha20-Poly1305 come from. *)
From Coq Require Import ZArith List Lia.
From Verif Require Import Base M_ChaCha20 M_Poly1305 S_ChaCha T_Ccp T_CcpPrivacy S_GcmPrp S_CcpAuth S_CcpForge S_CcpAdv T_CcpForge.
From Verif Require P_CcpAuth P_CcpForge P_GcmPrp BaseFacts.
From mathcomp Require Import all_ssreflect all_fingroup all_algebra.
Import ListNotations.
Import Order.TTheory GRing.Theory Num.Theory.

Section Bij.
Variables (A : attacker) (n : nat).
Hypothesis HA : admissible n A.
Let good (c : Z) (nonce : list Z) : Prop := (Z.le Z0 c /\ Z.lt c (Z.pow (Zpos 2) (Zpos 32))) /\ chacha_nonce nonce.
Lemma any_run_ext enc enc' l : (forall i, (i < n)%coq_nat -> let q := A (lr_run enc l A i) in
    enc' (q_nonce q) (q_data q) (q_msg q l) = enc (q_nonce q) (q_data q) (q_msg q l)) ->
  forall i, (i <= n)%coq_nat -> lr_run enc' l A i = lr_run enc l A i.
Proof.
  move=> H. elim=> [|i IH] Hi; first by []. cbn [lr_run]. rewrite IH; last lia. cbv zeta. congr (_ ++ [_])%list. by apply: H; lia.
Qed.
Lemma query_good enc l i : (i < n)%coq_nat -> let q := A (lr_run enc l A i) in
  chacha_nonce (q_nonce q) /\ is_slice (q_data q) /\ is_slice (q_msg q l) /\ Z.le (len (q_msg q l)) checked_limit.
Proof.
  move=> Hi q. have L : length (lr_run enc l A i) = i.
  { elim: (i) => [|k IH]; first by []. cbn [lr_run]. rewrite app_length IH. cbn [length]. lia. }
  case: (HA (lr_run enc l A i)); first by rewrite L. move=> Hn [Hd [Hl [Hr [Hlim [Hlen _]]]]].
  rewrite /q_msg /q. move: Hn Hd Hl Hr Hlim Hlen. set a := A _. clearbody a. move=> Hn Hd Hl Hr Hlim Hlen. clear - Hn Hd Hl Hr Hlim Hlen.
  by case: l; do 3 split=> //; rewrite /len -Hlen.
Qed.
Lemma seal_run_ext F F' l : (forall c nonce, good c nonce -> F' c nonce = F c nonce) ->
  lr_run (seal the_mac F') l A n = lr_run (seal the_mac F) l A n.
Proof.
  move=> H. apply: any_run_ext; last exact: le_n. move=> i Hi q. have [Hn [_ [_ Hl]]] := query_good (seal the_mac F) l i Hi.
  rewrite -/q in Hn Hl. rewrite /seal. cbv zeta.
  have -> : F' Z0 (q_nonce q) = F Z0 (q_nonce q) by apply: H; split=> //; lia.
  set c1 := List.map _ _. set c2 := List.map _ _. have -> : c1 = c2; last by [].
  apply: map_ext_in => j /in_seq Hj. rewrite H //. split=> //.
  have := P_CcpAuth.ctr_range {| q_nonce := nil; q_data := nil; q_left := q_msg q l; q_right := nil |} j Hl. cbn [q_left]. by apply; lia.
Qed.
Definition T (l : bool) (g : {ffun block -> oblock}) : {ffun block -> oblock} :=
  let F := shift (queries the_mac A n (as_blocks g) l) (as_blocks g) in
  [ffun x => P_CcpForge.oblock_of (F (le_decode (firstn 4 (bytes_of x))) (skipn 4 (bytes_of x)))].
Lemma T_blocks l g c nonce : good c nonce -> as_blocks (T l g) c nonce = shift (queries the_mac A n (as_blocks g) l) (as_blocks g) c nonce.
Proof.
  move=> [Hc Hn]. rewrite {1}/as_blocks -/(P_CcpForge.input_of c nonce) /T ffunE P_GcmPrp.bytes_of_K; last exact: P_CcpForge.input_block.
  rewrite P_CcpForge.input_counter // P_CcpForge.input_nonce. apply: P_CcpForge.obytes_K.
  exact: (shift_good the_mac A n HA _ l (P_CcpForge.as_blocks_good g) c nonce Hc Hn).
Qed.
Lemma T_run l g : lr_run (seal the_mac (as_blocks (T l g))) (negb l) A n = lr_run (seal the_mac (as_blocks g)) l A n.
Proof.
  rewrite (seal_run_ext (shift (queries the_mac A n (as_blocks g) l) (as_blocks g))); last exact: T_blocks.
  exact: (shifted_run the_mac A n HA (as_blocks g) l (P_CcpForge.as_blocks_good g) n (le_n n)).
Qed.
Lemma T_queries l g i : (i <= n)%coq_nat -> lr_run (seal the_mac (as_blocks (T l g))) (negb l) A i = lr_run (seal the_mac (as_blocks g)) l A i.
Proof.
  move=> Hi. have H := T_run l g.
  rewrite -[LHS](run_firstn the_mac A (as_blocks (T l g)) (negb l) n i Hi) -[RHS](run_firstn the_mac A (as_blocks g) l n i Hi).
  by rewrite /run H.
Qed.
Lemma T_T l g : T (negb l) (T l g) = g.
Proof.
  apply: P_CcpForge.as_blocks_inj => c nonce Hc Hn. rewrite T_blocks; last by split.
  have -> : queries the_mac A n (as_blocks (T l g)) (negb l) = queries the_mac A n (as_blocks g) l.
  { apply: map_ext_in => i /in_seq Hi. rewrite /run T_queries //. lia. }
  rewrite /shift. have -> : as_blocks (T l g) c nonce = shift (queries the_mac A n (as_blocks g) l) (as_blocks g) c nonce by apply: T_blocks.
  have Hg : good_blocks (as_blocks g) by exact: P_CcpForge.as_blocks_good.
  exact: (shift_twice _ _ _ _ (proj1 (Hg c nonce Hc Hn))).
Qed.
Lemma same_yes D l : (#|[set g : {ffun block -> oblock} | D (lr_run (seal the_mac (as_blocks g)) l A n)]| <=
  #|[set g : {ffun block -> oblock} | D (lr_run (seal the_mac (as_blocks g)) (negb l) A n)]|)%N.
Proof.
  have TI : injective (T l) by apply: (can_inj (g := T (negb l))) => g; exact: T_T.
  rewrite -(card_imset _ TI). apply: subset_leq_card. apply/subsetP => g' /imsetP [g]. rewrite inE => Dg ->. by rewrite inE T_run.
Qed.
End Bij.

(** ** C95: with random blocks, an attacker that never repeats a nonce gets nothing: the distribution of all it sees is the same for
    the left and for the right messages. *)
Theorem C95_random_blocks : forall A D n, admissible n A -> pr_yes true A D n = pr_yes false A D n.
Proof.
  move=> A D n HA. rewrite /pr_yes. congr (_%:R / _)%R. apply/eqP. rewrite eqn_leq.
  by rewrite (same_yes A n HA D true) (same_yes A n HA D false).
Qed.
Print Assumptions C95_random_blocks.

Lemma ckey_ok k : chacha_key (ckey_bytes k).
Proof.
  split; first by rewrite /ckey_bytes List.map_length; exact: (size_tuple k).
  apply Forall_forall => y /in_map_iff [i [<- _]]. have := ltn_ord i => /ssrnat.ltP. rewrite /byte_ok. lia.
Qed.
(** The runs with a key are the runs of the experiment with ChaCha20's blocks in the place of the random ones. *)
Theorem C95_chacha_experiment : forall b left A n k, admissible n A -> let F := fun c nonce => chacha20_block (ckey_bytes k) c nonce in
  lr_run (ccp_answer b (ckey_bytes k)) left A n = lr_run (seal the_mac F) left A n /\
  forall a, chacha_nonce (a_nonce a) -> is_slice (a_data a) -> is_slice (a_ct a) -> Z.le (len (a_ct a)) checked_limit ->
    ccp_accepts b (ckey_bytes k) a = accepted F a.
Proof.
  move=> b l A n k HA F. have Hk := ckey_ok k. split.
  - apply: any_run_ext; last exact: le_n. move=> i Hi q. have [Hn [Hd [Hm Hl]]] := query_good A n HA (seal the_mac F) l i Hi.
    rewrite /ccp_answer (encrypt_seal _ Hk) //. exact: List.map_length.
  - move=> a Hn Hd Hc Hl. rewrite /ccp_accepts.
    have [|r ->] := P_CcpAuth.decrypt_accepted _ Hk b a (List.map (fun=> Z0) (a_ct a)) Hn Hd Hc (List.map_length _ _); first by right.
    by [].
Qed.
Print Assumptions C95_chacha_experiment.

(** The fractions for keys are those of the games with ChaCha20's blocks. *)
Theorem C95_chacha_game : forall b A n, admissible n A ->
  let F (k : ckey) := fun c nonce => chacha20_block (ckey_bytes k) c nonce in
  (forall left D, ccp_yes b left A D n = #|[set k : ckey | D (lr_run (seal the_mac (F k)) left A n)]|%:R / #|ckey|%:R)%R /\
  (forall m B G, forger_ok n m B A G ->
     (forall tr a, length tr = n -> In a (G tr) -> Z.le (len (a_ct a)) checked_limit) ->
     ccp_forge b A G n = #|[set k : ckey | existsb (accepted (F k)) (G (lr_run (seal the_mac (F k)) true A n))]|%:R / #|ckey|%:R)%R.
Proof.
  move=> b A n HA F. split.
  - move=> l D. rewrite /ccp_yes. set S := [set k | _]. set S' := [set k | _]. have -> : S = S'; last by [].
    apply/setP => k. rewrite !inE. by rewrite (proj1 (C95_chacha_experiment b l A n k HA)).
  - move=> m B G HG HL. rewrite /ccp_forge. set S := [set k | _]. set S' := [set k | _]. have -> : S = S'; last by [].
    apply/setP => k. rewrite !inE. rewrite (proj1 (C95_chacha_experiment b true A n k HA)).
    have R : length (lr_run (seal the_mac (F k)) true A n) = n by exact: (run_length the_mac A (F k) true n).
    have [_ H] := proj2 HG _ R. have {}HL := fun a => HL _ a R. move: (G _) H HL. elim=> [|a l IH] H HL; first by [].
    cbn [existsb]. rewrite IH; [|by move=> a' Ia; apply: H; right|by move=> a' Ia; apply: HL; right].
    have [Hn [Hd [Hc _]]] := H a (or_introl erefl).
    by rewrite (proj2 (C95_chacha_experiment b true A n k HA) a Hn Hd Hc (HL a (or_introl erefl))).
Qed.
Print Assumptions C95_chacha_game.

(** So the advantage against ChaCha20-Poly1305 is at most what a random key and random blocks differ by in the two experiments, and the
    chance of a forgery what they differ by in the game of forgery, plus 8712 m B / 2^106. *)
Theorem C95_chacha_advantage : forall b A D n, admissible n A ->
  (`| ccp_yes b true A D n - ccp_yes b false A D n | <=
   `| ccp_yes b true A D n - pr_yes true A D n | + `| ccp_yes b false A D n - pr_yes false A D n |)%R.
Proof.
  move=> b A D n HA. rewrite -(C95_random_blocks A D n HA). set a := ccp_yes _ true _ _ _. set a' := ccp_yes _ false _ _ _. set p := pr_yes _ _ _ _.
  have -> : (a - a' = (a - p) + (p - a'))%R by rewrite addrA subrK. rewrite [X in (_ <= _ + X)%R]distrC. exact: ler_norm_add.
Qed.
Print Assumptions C95_chacha_advantage.
Theorem C95_chacha_forgery : forall b A G n m B, admissible n A -> forger_ok n m (Z.of_nat B) A G ->
  (ccp_forge b A G n <= `| ccp_forge b A G n - pr_forge A G n | + (m * B)%N%:R * 33%:R ^+ 2 / 2%:R ^+ 103)%R.
Proof.
  move=> b A G n m B HA HG. have H := C95_forgery A G n m B HA HG. set w := ((m * B)%N%:R * _ / _)%R in H *. clearbody w.
  set r := ccp_forge _ _ _ _. set p := pr_forge _ _ _ in H *.
  apply: le_trans (ler_add (lexx _) H). have {1}-> : r = ((r - p) + p)%R by rewrite subrK.
  apply: ler_add => //. exact: ler_norm.
Qed.
Print Assumptions C95_chacha_forgery.
Example C95_adv_ex b D : pr_yes true ex_attacker D 10 = pr_yes false ex_attacker D 10 /\
  (ccp_forge b ex_attacker ex_forger 10 <= `| ccp_forge b ex_attacker ex_forger 10 - pr_forge ex_attacker ex_forger 10 | + (1 * 3)%N%:R * 33%:R ^+ 2 / 2%:R ^+ 103)%R.
Proof.
  have HA : admissible 10 ex_attacker by move=> tr Ht; apply: (proj1 C95_ex); lia.
  split; first exact: C95_random_blocks. exact: (C95_chacha_forgery b ex_attacker ex_forger 10 1 3 HA ex_forger_ok).
Qed.
