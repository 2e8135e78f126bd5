(** Random functions and random permutations: an adaptive algorithm with at most d questions answers "yes" for nearly the same
    fraction of all functions and of all permutations of a finite type (mathcomp's finite types are used for the counting). *)
From mathcomp Require Import all_ssreflect all_fingroup all_algebra.
Set Implicit Arguments.
Unset Strict Implicit.
Unset Printing Implicit Defensive.
Import Order.TTheory GRing.Theory Num.Theory.

(** A deterministic adaptive algorithm: it asks for values of a function and says yes or no. *)
Inductive tree (X : Type) : Type := Leaf (r : bool) | Ask (x : X) (k : X -> tree X).
Arguments Leaf {X}.
Fixpoint eval X (t : tree X) (f : X -> X) : bool :=
  match t with Leaf r => r | Ask x k => eval (k (f x)) f end.
Fixpoint depth_le X (d : nat) (t : tree X) : Prop :=
  match t, d with
  | Leaf _, _ => True
  | Ask _ _, O => False
  | Ask _ k, S d => forall y, depth_le d (k y)
  end.

Section Switch.
Variable X : finType.
Let N := #|X|.
Implicit Types (s : seq (X * X)) (t : tree X).

Definition agrees (f : X -> X) s := all (fun p => f p.1 == p.2) s.
Definition nperm s t := #|[set g : {perm X} | agrees g s && eval t g]|.
Definition nfun s t := #|[set g : {ffun X -> X} | agrees g s && eval t g]|.
Definition yes : tree X := Leaf true.
Definition wf s := uniq (map fst s) && uniq (map snd s).

Lemma depth_S d t : depth_le d t -> depth_le d.+1 t.
Proof. by elim: t d => [r|x k IH] [|d] //= H y; apply: IH. Qed.

Lemma nperm_split s t x : nperm s t = \sum_(y : X) #|[set g : {perm X} | agrees g ((x, y) :: s) && eval t g]|.
Proof.
  rewrite /nperm -sum1_card (partition_big (fun g : {perm X} => g x) predT) //=.
  apply: eq_bigr => y _. rewrite -sum1_card. apply: eq_bigl => g. rewrite !inE /= andbC andbA. by [].
Qed.
Lemma nfun_split s t x : nfun s t = \sum_(y : X) #|[set g : {ffun X -> X} | agrees g ((x, y) :: s) && eval t g]|.
Proof.
  rewrite /nfun -sum1_card (partition_big (fun g : {ffun X -> X} => g x) predT) //=.
  apply: eq_bigr => y _. rewrite -sum1_card. apply: eq_bigl => g. rewrite !inE /= andbC andbA. by [].
Qed.
Lemma nperm_ask s x k : nperm s (Ask x k) = \sum_(y : X) nperm ((x, y) :: s) (k y).
Proof.
  rewrite (nperm_split s _ x). apply: eq_bigr => y _. apply: eq_card => g. rewrite !inE /=.
  by case: eqP => [->|//].
Qed.
Lemma nfun_ask s x k : nfun s (Ask x k) = \sum_(y : X) nfun ((x, y) :: s) (k y).
Proof.
  rewrite (nfun_split s _ x). apply: eq_bigr => y _. apply: eq_card => g. rewrite !inE /=.
  by case: eqP => [->|//].
Qed.
(** Asking again. *)
Lemma ask_known s x y k : (x, y) \in s -> (nperm s (Ask x k) = nperm s (k y)) /\ (nfun s (Ask x k) = nfun s (k y)).
Proof.
  move=> H. split; apply: eq_card => g; rewrite !inE /=; case A: (agrees g s) => //=;
  by move/allP: A => /(_ _ H) /= /eqP ->.
Qed.
Lemma agrees_fst (f g : X -> X) s : (forall x, x \in map fst s -> f x = g x) -> agrees f s = agrees g s.
Proof.
  move=> H. apply: eq_in_all => p Hp. rewrite H //. by apply: map_f.
Qed.
(** Values not yet used are alike. *)
Lemma nperm_like s x y y' : x \notin map fst s -> y \notin map snd s -> y' \notin map snd s ->
  nperm ((x, y) :: s) yes = nperm ((x, y') :: s) yes.
Proof.
  move=> Hx Hy Hy'.
  have le : forall y y', y \notin map snd s -> y' \notin map snd s -> nperm ((x, y) :: s) yes <= nperm ((x, y') :: s) yes.
  { move=> {Hy Hy'} {}y {}y' Hy Hy'. rewrite /nperm.
    rewrite -(card_imset _ (mulIg (tperm y y'))). apply: subset_leq_card. apply/subsetP => h /imsetP [g].
    rewrite !inE !andbT /= => /andP [/eqP Eg A] ->. rewrite permM Eg tpermL eqxx /=.
    apply/allP => p Hp. move/allP: A => /(_ _ Hp) /= /eqP E. rewrite permM E.
    rewrite tpermD //; apply/eqP => Q; [move: Hy|move: Hy']; rewrite Q; move/negP; apply; by apply: map_f. }
  apply/eqP. by rewrite eqn_leq !le.
Qed.
Lemma nperm_used s x y : x \notin map fst s -> y \in map snd s -> nperm ((x, y) :: s) yes = 0.
Proof.
  move=> Hx /mapP [p Hp Ey]. apply: eq_card0 => g. rewrite !inE andbT /=. apply/negP => /andP [/eqP E A].
  move/allP: A => /(_ _ Hp) /= /eqP E'. move: Hx. move/negP; apply.
  have -> : x = p.1 by apply: (@perm_inj _ g); rewrite E E' Ey. by apply: map_f.
Qed.
Lemma nfun_like s x y y' : x \notin map fst s -> nfun ((x, y) :: s) yes = nfun ((x, y') :: s) yes.
Proof.
  move=> Hx.
  have le : forall y y', nfun ((x, y) :: s) yes <= nfun ((x, y') :: s) yes.
  { move=> {}y {}y'. rewrite /nfun.
    pose h (g : {ffun X -> X}) : {ffun X -> X} := [ffun z => if z == x then tperm y y' (g z) else g z].
    have hi : injective h.
    { apply: inv_inj => g. apply/ffunP => z. rewrite !ffunE. case: eqP => // ->. by rewrite tpermK. }
    rewrite -(card_imset _ hi). apply: subset_leq_card. apply/subsetP => h' /imsetP [g].
    rewrite !inE !andbT /= => /andP [/eqP Eg A] ->. rewrite ffunE eqxx Eg tpermL eqxx /=.
    rewrite (@agrees_fst _ g) // => z Hz. rewrite ffunE. case: eqP => // E. by move: Hx; rewrite -E Hz. }
  apply/eqP. by rewrite eqn_leq !le.
Qed.
Lemma size_unused s : uniq (map snd s) -> #|[pred y | y \notin map snd s]| = N - size s.
Proof.
  move=> U. rewrite -(size_map snd s) -(card_uniqP U) /N.
  rewrite -(cardC (mem (map snd s))) addKn. by apply: eq_card => y; rewrite !inE.
Qed.
Lemma nperm_step s x y : wf s -> x \notin map fst s -> y \notin map snd s -> nperm s yes = (N - size s) * nperm ((x, y) :: s) yes.
Proof.
  move=> /andP [_ U] Hx Hy. rewrite (nperm_split s _ x).
  rewrite (bigID [pred y | y \notin map snd s]) /= [X in _ + X]big1 ?addn0.
  2: { move=> z /negbNE Hz. exact: (nperm_used Hx Hz). }
  rewrite -(size_unused U) -sum_nat_const. apply: eq_bigr => z Hz. exact: (nperm_like Hx Hz Hy).
Qed.
Lemma nfun_step s x y : x \notin map fst s -> nfun s yes = N * nfun ((x, y) :: s) yes.
Proof.
  move=> Hx. rewrite (nfun_split s _ x) /N -sum_nat_const. apply: eq_bigr => z _. exact: nfun_like.
Qed.
Lemma nfun_le s t : nfun s t <= nfun s yes.
Proof. apply: subset_leq_card. apply/subsetP => g. by rewrite !inE /= andbT => /andP []. Qed.
Lemma nperm_0 s t : nperm s yes = 0 -> nperm s t = 0.
Proof.
  move=> H. apply/eqP. rewrite -leqn0 -H. apply: subset_leq_card. apply/subsetP => g. by rewrite !inE /= andbT => /andP [].
Qed.

Open Scope ring_scope.
Definition pp s t : rat := (nperm s t)%:R / (nperm s yes)%:R.
Definition pf s t : rat := (nfun s t)%:R / (nfun s yes)%:R.
Lemma pf_0 s t : 0 <= pf s t. Proof. by rewrite /pf divr_ge0 ?ler0n. Qed.
Lemma pf_1 s t : pf s t <= 1.
Proof.
  rewrite /pf. case E: (nfun s yes) => [|n]; first by rewrite invr0 mulr0 ler01.
  by rewrite ler_pdivr_mulr ?ltr0n // mul1r ler_nat -E nfun_le.
Qed.

(** The distance after [k] different questions, with [d] to come. *)
Definition eps (k d : nat) : rat := (\sum_(j < d) (k + j)%N)%:R / N%:R.
Lemma eps_S k d : eps k d.+1 = k%:R / N%:R + eps k.+1 d.
Proof.
  rewrite /eps big_ord_recl addn0 natrD mulrDl. congr (_ + _ / _). congr (_%:R). apply: eq_bigr => i _. by rewrite /bump /= addnA addn1.
Qed.
Lemma eps_mono k d : eps k d <= eps k d.+1.
Proof. rewrite /eps big_ord_recr /= natrD mulrDl ler_addl. by rewrite divr_ge0 ?ler0n. Qed.
Lemma pp_ask s x k : wf s -> x \notin map fst s ->
  pp s (Ask x k) = (N - size s)%N%:R^-1 * \sum_(y | y \notin map snd s) pp ((x, y) :: s) (k y).
Proof.
  move=> W Hx. rewrite /pp nperm_ask (bigID [pred y | y \notin map snd s]) /= [X in (_ + X)%N]big1 ?addn0.
  2: { move=> z /negbNE Hz. apply: nperm_0. exact: (nperm_used Hx Hz). }
  rewrite natr_sum mulr_suml mulr_sumr. apply: eq_bigr => y Hy. rewrite (nperm_step W Hx Hy) natrM invfM.
  by rewrite mulrC -mulrA [X in _ * X]mulrC.
Qed.
Lemma pf_ask s x k : x \notin map fst s -> pf s (Ask x k) = N%:R^-1 * \sum_y pf ((x, y) :: s) (k y).
Proof.
  move=> Hx. rewrite /pf nfun_ask natr_sum mulr_suml mulr_sumr. apply: eq_bigr => y _. rewrite (nfun_step y Hx) natrM invfM.
  by rewrite mulrC -mulrA [X in _ * X]mulrC.
Qed.
Lemma sum_le1 (P : pred X) (F : X -> rat) (c : rat) : (forall y, P y -> F y <= c) -> \sum_(y | P y) F y <= #|P|%:R * c.
Proof.
  move=> H. apply: (le_trans (ler_sum _ H)). by rewrite (@sumr_const _ _ P) mulr_natl.
Qed.

Lemma switch_gen t : forall d s, depth_le d t -> wf s -> (0 < nperm s yes)%N -> (0 < nfun s yes)%N ->
  `|pp s t - pf s t| <= eps (size s) d.
Proof.
  elim: t => [r|x k IH] d s D W Hc Hg.
  { have E : pp s (Leaf r) = pf s (Leaf r).
    { rewrite /pp /pf. case: r {D}; first by rewrite !divff // pnatr_eq0 -lt0n.
      have -> : nperm s (Leaf false) = 0%N by apply: eq_card0 => g; rewrite !inE andbF.
      have -> : nfun s (Leaf false) = 0%N by apply: eq_card0 => g; rewrite !inE andbF. by rewrite !mul0r. }
    by rewrite E subrr normr0 /eps divr_ge0 ?ler0n. }
  case: d D => [//|d] /= D.
  case Hx: (x \in map fst s).
  { case/mapP: Hx => p Hp Ex. have Hq : (x, p.2) \in s by rewrite Ex -surjective_pairing.
    rewrite /pp /pf (ask_known k Hq).1 (ask_known k Hq).2. apply: le_trans (eps_mono _ _). exact: IH. }
  move/negbT: Hx => Hx.
  rewrite (pp_ask k W Hx) (pf_ask k Hx) eps_S.
  set U := [pred y | y \notin map snd s].
  have CU : #|U| = (N - size s)%N by apply: size_unused; case/andP: W.
  have LN : (size s < N)%N.
  { rewrite -(size_map fst s) -(card_uniqP _) ?(andP W).1 //. apply: proper_card. apply/properP. split; first by apply/subsetP.
    by exists x. }
  have N0 : (0 : rat) < N%:R by rewrite ltr0n (leq_ltn_trans _ LN).
  have M0 : (0 : rat) < (N - size s)%N%:R by rewrite ltr0n subn_gt0.
  set M := (N - size s)%N%:R in M0 *.
  have EM : M = N%:R - (size s)%:R by rewrite /M natrB // ltnW.
  have -> : \sum_y pf ((x, y) :: s) (k y) = \sum_(y | U y) pf ((x, y) :: s) (k y) + \sum_(y | ~~ U y) pf ((x, y) :: s) (k y)
    by rewrite (bigID U).
  have -> : \sum_(y | y \notin map snd s) pp ((x, y) :: s) (k y) =
            \sum_(y | U y) (pp ((x, y) :: s) (k y) - pf ((x, y) :: s) (k y)) + \sum_(y | U y) pf ((x, y) :: s) (k y)
    by rewrite -big_split /=; apply: eq_bigr => y _; rewrite subrK.
  set A := \sum_(y | U y) (_ - _). set Q1 := \sum_(y | U y) pf _ _. set Q2 := \sum_(y | ~~ U y) _.
  have HA : `|A| <= M * eps (size s).+1 d.
  { apply: (le_trans (ler_norm_sum _ _ _)). rewrite /M -CU. apply: sum_le1 => y Hy0. have Hy : y \notin map snd s by exact: Hy0.
    apply: (IH y d ((x, y) :: s)) => //=.
    - by rewrite /wf /= Hx Hy /=; case/andP: W => -> ->.
    - by move: Hc; rewrite (nperm_step W Hx Hy) muln_gt0 => /andP [].
    - by move: Hg; rewrite (nfun_step y Hx) muln_gt0 => /andP []. }
  have HQ1 : 0 <= Q1 <= M.
  { apply/andP. split; first by apply: sumr_ge0 => y _; apply: pf_0. rewrite /M -CU -[X in _ <= X]mulr1. apply: sum_le1 => y _. exact: pf_1. }
  have HQ2 : 0 <= Q2 <= (size s)%:R.
  { apply/andP. split; first by apply: sumr_ge0 => y _; apply: pf_0.
    have <- : #|[pred y | ~~ U y]| = size s.
    { rewrite -(size_map snd s). have /andP [_ V] := W. rewrite -(card_uniqP V). apply: eq_card => y. by rewrite !inE negbK. }
    rewrite -[X in _ <= X]mulr1. apply: sum_le1 => y _. exact: pf_1. }
  clearbody A Q1 Q2. move: HA HQ1 HQ2. move: (eps _ d) => e HA /andP [Q10 Q1M] /andP [Q20 Q2M].
  set K := (size s)%:R in EM Q2M *. set n := N%:R in N0 EM *.
  have nn : n != 0 by apply: lt0r_neq0. have mn : M != 0 by apply: lt0r_neq0.
  have EB : M^-1 - n^-1 = K / (M * n).
  { have -> : K = n - M by rewrite EM opprB addrC subrK. rewrite mulrBl invfM. 
    have -> : n * (M^-1 * n^-1) = M^-1 by rewrite mulrCA divff // mulr1.
    by rewrite [M * _]mulrA divff // mul1r. }
  have -> : M^-1 * (A + Q1) - n^-1 * (Q1 + Q2) = M^-1 * A + (K / (M * n) * Q1 - n^-1 * Q2).
  { rewrite -EB !mulrDr mulrBl opprD -!addrA. by []. }
  rewrite [X in _ <= X]addrC. apply: (le_trans (ler_norm_add _ _)). apply: ler_add.
  { rewrite normrM gtr0_norm ?invr_gt0 //. by rewrite ler_pdivr_mull. }
  have K0 : 0 <= K by rewrite /K ler0n.
  have n0 : 0 <= n^-1 by rewrite invr_ge0 ltW.
  have H1 : K / (M * n) * Q1 <= K / n.
  { have -> : K / (M * n) * Q1 = K / n * (Q1 / M) by rewrite invfM [M^-1 * _]mulrC !mulrA [_ * Q1 * _]mulrAC.
    rewrite -[X in _ <= X]mulr1. apply: ler_wpmul2l; first by rewrite mulr_ge0. by rewrite ler_pdivr_mulr // mul1r. }
  have H0 : 0 <= K / (M * n) * Q1 by rewrite mulr_ge0 // divr_ge0 // mulr_ge0 // ltW.
  have H2 : n^-1 * Q2 <= K / n by rewrite [K / n]mulrC; apply: ler_wpmul2l.
  have H3 : 0 <= n^-1 * Q2 by rewrite mulr_ge0.
  rewrite ler_norml. apply/andP. split.
  - rewrite -[X in X <= _]add0r. apply: ler_add => //. by rewrite ler_opp2.
  - rewrite -[X in _ <= X]subr0. apply: ler_add => //. by rewrite ler_opp2.
Qed.

Lemma wf_nil : wf [::]. Proof. by []. Qed.
Lemma nperm_nil : nperm [::] yes = #|{perm X}|.
Proof. rewrite /nperm -cardsT. apply: eq_card => g. by rewrite !inE. Qed.
Lemma nfun_nil : nfun [::] yes = #|{ffun X -> X}|.
Proof. rewrite /nfun -cardsT. apply: eq_card => g. by rewrite !inE. Qed.
(** The switching lemma. *)
Lemma switching t d : depth_le d t ->
  `| #|[set g : {perm X} | eval t g]|%:R / #|{perm X}|%:R - #|[set g : {ffun X -> X} | eval t g]|%:R / #|{ffun X -> X}|%:R |
  <= (\sum_(j < d) j)%N%:R / N%:R :> rat.
Proof.
  move=> D. have := @switch_gen t d [::] D wf_nil. rewrite /pp /pf /eps nperm_nil nfun_nil /nperm /nfun.
  apply.
  - apply/card_gt0P. by exists 1%g.
  - apply/card_gt0P. by exists [ffun x => x].
Qed.
End Switch.
