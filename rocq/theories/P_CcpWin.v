(** The interactive game of C95: counting. *)
From Coq Require Import ZArith List Lia.
From Verif Require Import Base S_ChaCha T_Ccp T_CcpPrivacy S_GcmPrp S_CcpAuth S_CcpForge S_CcpGame S_CcpWin P_CcpGame.
From Verif Require BaseFacts P_GcmPrp P_GcmForge P_CcpAuth P_CcpForge.
From mathcomp Require Import all_ssreflect all_fingroup all_algebra.
Import ListNotations.
Import Order.TTheory GRing.Theory Num.Theory.
Set Implicit Arguments.
Unset Strict Implicit.
Unset Printing Implicit Defensive.
Local Open Scope nat_scope.

(** Counting by orbits, inside a set that the orbits do not leave. *)
Lemma orbit_bound2 (G X : finType) (rho : G -> X -> G) (old : G -> X) (S C : pred G) (B : nat) :
  (forall g h, rho (rho g h) (old g) = g) -> (forall g h, old (rho g h) = h) -> (forall g h, C (rho g h) = C g) -> (forall g, S g -> C g) ->
  (forall g, C g -> #|[set h | S (rho g h)]| <= B) ->
  #|[set g | S g]| * #|X| <= B * #|[set g | C g]|.
Proof.
  move=> H1 H2 HC HS H3.
  pose phi (p : G * X) := (rho p.1 p.2, old p.1).
  have phi_inj : injective phi by apply: (@inv_inj _ phi) => [[g h]]; rewrite /phi /= H1 H2.
  have -> : #|[set g | S g]| * #|X| = #|[set p : G * X | S (phi p).1]|.
  { transitivity #|setX [set g | S g] [set: X]|; first by rewrite cardsX cardsT.
    rewrite -(card_imset _ phi_inj). apply: eq_card => [[g h]]. rewrite [in RHS]inE. apply/imsetP/idP.
    - case=> [[g' h']]. rewrite !inE andbT /= => Sg [-> ->]. by rewrite /phi /= H1.
    - move=> Sg. exists (phi (g, h)); last by rewrite /phi /= H1 H2. by rewrite !inE andbT. }
  rewrite -sum1_card (partition_big (fun p : G * X => p.1) predT) //= mulnC -[#|[set g | C g]|]sum1_card big_distrl /=.
  rewrite [X in _ <= X]big_mkcond. apply: leq_sum => g _. rewrite sum1_card inE mul1n.
  have E : #|[pred p : G * X | (p \in [set p : G * X | S (rho p.1 p.2)]) && (p.1 == g)]| <= #|[set h | S (rho g h)]|.
  { rewrite -(@card_imset _ _ (fun h : X => (g, h))); last by move=> h h' [].
    apply: subset_leq_card. apply/subsetP => [[g' h]] H. move: (H). rewrite unfold_in /= inE /= => /andP [Sg /eqP E]. rewrite E in Sg *.
    by apply: imset_f; rewrite inE. }
  apply: leq_trans E _. case Cg: (C g); first exact: H3.
  rewrite leqn0 cards_eq0. apply/eqP/setP => h. rewrite !inE. apply/negP => /HS. by rewrite HC Cg.
Qed.

Section Game.
Variables (n m B : nat) (P : player).
Hypothesis HP : player_ok n m (Z.of_nat B) P.
Section Step.
Variable s : nat.
Hypothesis Hs : (s < n)%coq_nat.
Definition Rho (g : {ffun block -> oblock}) (h : block) : {ffun block -> oblock} :=
  [ffun x => P_CcpForge.oblock_of (rho P s (as_blocks g) (bytes_of h) (le_decode (firstn 4 (bytes_of x))) (skipn 4 (bytes_of x)))].
Definition Old (g : {ffun block -> oblock}) : block := block_of (old P s (as_blocks g)).
Lemma Rho_blocks g h c nonce : Z.le Z0 c /\ Z.lt c P_CcpForge.two32 -> chacha_nonce nonce ->
  as_blocks (Rho g h) c nonce = rho P s (as_blocks g) (bytes_of h) c nonce.
Proof.
  move=> Hc Hn. rewrite {1}/as_blocks -/(P_CcpForge.input_of c nonce) /Rho ffunE P_GcmPrp.bytes_of_K; last exact: P_CcpForge.input_block.
  rewrite P_CcpForge.input_counter // P_CcpForge.input_nonce. apply: P_CcpForge.obytes_K.
  have H := rho_good n m _ P HP s Hs _ (bytes_of h) (@P_CcpForge.as_blocks_good g) (P_GcmPrp.bytes_of_block h). exact: (H c nonce Hc Hn).
Qed.
Lemma old_b16 g : P_CcpAuth.b16 (old P s (as_blocks g)).
Proof.
  have [L Bk] := otk_good' n m _ P HP s Hs (as_blocks g) (@P_CcpForge.as_blocks_good g).
  rewrite /old. case: query_of => [q|].
  - split; [by rewrite firstn_length L|exact: BaseFacts.bytes_firstn].
  - split; [by rewrite skipn_length L|exact: BaseFacts.bytes_skipn].
Qed.
Lemma Rho_back g h : Rho (Rho g h) (Old g) = g.
Proof.
  apply: P_CcpForge.as_blocks_inj => c nonce Hc Hn. have Bg := @P_CcpForge.as_blocks_good g. have Bh : P_CcpAuth.b16 (bytes_of h) by exact: P_GcmPrp.bytes_of_block.
  rewrite Rho_blocks // /Old P_GcmPrp.bytes_of_K; last exact: old_b16.
  rewrite (rho_ext n m _ P HP s Hs (rho P s (as_blocks g) (bytes_of h))) //; last by move=> c' n' Hc' Hn'; exact: Rho_blocks.
  exact: (rho_back n m _ P HP s Hs).
Qed.
Lemma Rho_old g h : Old (Rho g h) = h.
Proof.
  have Bg := @P_CcpForge.as_blocks_good g. have Bh : P_CcpAuth.b16 (bytes_of h) by exact: P_GcmPrp.bytes_of_block.
  rewrite /Old (old_ext n m _ P HP s Hs (rho P s (as_blocks g) (bytes_of h))); last by move=> c' n' Hc' Hn'; exact: Rho_blocks.
  rewrite (rho_old n m _ P HP s Hs) //. exact: P_GcmPrp.block_of_K.
Qed.
Lemma Rho_sim g h : sim (as_blocks (Rho g h)) P s = sim (as_blocks g) P s.
Proof.
  have Bg := @P_CcpForge.as_blocks_good g. have Bh : P_CcpAuth.b16 (bytes_of h) by exact: P_GcmPrp.bytes_of_block.
  rewrite (sim_ext n m _ P HP s Hs (rho P s (as_blocks g) (bytes_of h))); [|by move=> c' n' Hc' Hn'; exact: Rho_blocks|lia].
  exact: (rho_sim n m _ P HP s Hs _ _ Bg Bh s (le_n s)).
Qed.
Definition tries (g : {ffun block -> oblock}) : bool := is_try (P (sim (as_blocks g) P s)).
Definition wins (g : {ffun block -> oblock}) : bool := tries g && accepted (as_blocks g) (att P s (as_blocks g)).
Lemma wins_few g : tries g -> #|[set h | wins (Rho g h)]| <= P_CcpForge.bound B.
Proof.
  move=> Tg. have Bg := @P_CcpForge.as_blocks_good g.
  have Ea : P (sim (as_blocks g) P s) = Decrypt (att P s (as_blocks g)) by move: Tg; rewrite /tries /att; case: (P _).
  have W : forall h, wins (Rho g h) -> accepted (rho P s (as_blocks g) (bytes_of h)) (att P s (as_blocks g)) = true.
  { move=> h /andP [_]. have X c' n' := @Rho_blocks g h c' n'. have -> : att P s (as_blocks (Rho g h)) = att P s (as_blocks g) by rewrite /att Rho_sim.
    move=> E. rewrite -E. symmetry. apply: (P_CcpAuth.accepted_ext n m (Z.of_nat B) (fun=> mkq nil nil nil)); [by move=> c' n' H1 H2; exact: X|exact: (att_nonce n m _ P HP)]. }
  case: (rho_bad n m _ P HP s Hs (as_blocks g) Bg Ea) => [[bad [Lb Hb]]|[k Hk]].
  - apply: (leq_trans (n := length bad * P_CcpForge.fibre)).
    + apply: leq_trans (P_CcpForge.few_bad bad). apply: subset_leq_card. apply/subsetP => h. rewrite !inE => /W E.
      apply/existsb_exists. exists (P_CcpAuth.point (bytes_of h)). split; [|exact: Z.eqb_refl]. apply: Hb => //. exact: P_GcmPrp.bytes_of_block.
    + rewrite /P_CcpForge.bound leq_mul2r. apply/orP. right. apply/ssrnat.leP. move: Lb. lia.
  - apply: (leq_trans (n := #|[set block_of k]|)).
    + apply: subset_leq_card. apply/subsetP => h. rewrite !inE => /W E. apply/eqP.
      by rewrite -(Hk (bytes_of h) (P_GcmPrp.bytes_of_block h) E) P_GcmPrp.block_of_K.
    + rewrite cards1 /P_CcpForge.bound muln_gt0. apply/andP. split; last exact: P_CcpForge.fibre_gt0.
      have H := proj1 HP (sim (as_blocks g) P s). rewrite sim_length Ea in H. have [_ [_ [_ [Hp _]]]] := H Hs.
      apply/ssrnat.ltP. move: (P_CcpAuth.hash_blocks_pos 0%N (fun=> mkq nil nil nil) (a_data (att P s (as_blocks g))) (a_ct (att P s (as_blocks g)))) Hp. lia.
Qed.
Lemma wins_bound : #|[set g | wins g]| * #|block| <= P_CcpForge.bound B * #|[set g | tries g]|.
Proof.
  apply: (orbit_bound2 (rho := Rho) (old := Old)); [exact: Rho_back|exact: Rho_old| | |exact: wins_few].
  - move=> g h. by rewrite /tries Rho_sim.
  - by move=> g /andP [].
Qed.
End Step.

Lemma count_tries (p : nat -> bool) k : \sum_(s < k) (p s : nat) = length (List.filter p (List.seq 0 k)).
Proof.
  elim: k => [|k IH]; first by rewrite big_ord0.
  rewrite big_ord_recr IH seq_S filter_app app_length. congr addn. cbn [List.filter Nat.add]. by case: (p k).
Qed.
Lemma tries_few g : \sum_(s < n) (tries s g : nat) <= m.
Proof.
  rewrite (count_tries (fun s => tries s g)). have H := proj2 HP (sim (as_blocks g) P n) (sim_length _ _ _). apply/ssrnat.leP. apply: Nat.le_trans H.
  rewrite (filter_ext_in _ (fun i => tries i g)) //. move=> i /in_seq Hi. rewrite /tries sim_firstn //. lia.
Qed.
Lemma win_bound : #|[set g : {ffun block -> oblock} | won (play (as_blocks g) P n)]| * #|block| <= m * P_CcpForge.bound B * #|{ffun block -> oblock}|.
Proof.
  have H : #|[set g : {ffun block -> oblock} | won (play (as_blocks g) P n)]| <= \sum_(s < n) #|[set g | wins s g]|.
  { rewrite -sum1_card (eq_bigr (fun s : 'I_n => \sum_(g : {ffun block -> oblock}) (wins s g : nat))).
    - rewrite exchange_big /= big_mkcond. apply: leq_sum => g _. rewrite inE. case: ifP => // /win_sim [s [a [Hs [Ea Ra]]]].
      have Ls : s < n by apply/ssrnat.ltP.
      rewrite (bigD1 (Ordinal Ls)) //= /wins /tries /att Ea /= Ra. exact: leq_addr.
    - move=> s _. rewrite -sum1_card big_mkcond /=. apply: eq_bigr => g _. rewrite inE. by case: (wins _ _). }
  have H2 : (\sum_(s < n) #|[set g | wins s g]|) * #|block| <= m * P_CcpForge.bound B * #|{ffun block -> oblock}|.
  { rewrite big_distrl /=. apply: (leq_trans (n := \sum_(s < n) P_CcpForge.bound B * #|[set g | tries s g]|)).
    - apply: leq_sum => s _. apply: wins_bound. apply/ssrnat.ltP. exact: ltn_ord.
    - rewrite -big_distrr /= [m * _]mulnC -mulnA leq_mul2l. apply/orP. right.
      rewrite (eq_bigr (fun s : 'I_n => \sum_(g : {ffun block -> oblock}) (tries s g : nat))).
      + rewrite exchange_big /=. apply: (leq_trans (n := \sum_(g : {ffun block -> oblock}) m)).
        * apply: leq_sum => g _. exact: tries_few.
        * by rewrite sum_nat_const mulnC.
      + move=> s _. rewrite -sum1_card big_mkcond /=. apply: eq_bigr => g _. rewrite inE. by case: (tries _ _). }
  apply: leq_trans H2. by rewrite leq_mul2r H orbT.
Qed.
End Game.
