(** C95: the bounds as powers of two. *)
From Coq Require Import ZArith List Lia.
From Verif Require Import Base S_GcmPrp S_CcpForge.
From Verif Require S_CcpGame S_CcpWin S_CcpCca T_CcpGame T_CcpCca.
From mathcomp Require Import all_ssreflect all_fingroup all_algebra.
Import ListNotations.
Import Order.TTheory GRing.Theory Num.Theory.
Local Open Scope nat_scope.

Lemma thirtythree x k : x <= 2 ^ k -> (x%:R * 33%:R ^+ 2 <= 2%:R ^+ (k + 11) :> rat)%R.
Proof.
  move=> H. rewrite -!natrX -natrM ler_nat expnD. apply: leq_mul; [exact: H|by []].
Qed.
(** ** C95, with one budget: if the number of attempts times the number of Poly1305 blocks of each is at most 2^k, a player forges under
    random blocks with a probability of at most 2^(k+11) / 2^103 ... *)
Theorem C95_interactive_budget : forall P n m B k, S_CcpGame.player_ok n m (Z.of_nat B) P -> (Nat.mul m B <= 2 ^ k)%coq_nat ->
  (S_CcpWin.pr_win P n <= 2%:R ^+ (k + 11) / 2%:R ^+ 103)%R.
Proof.
  move=> P n m B k HP /ssrnat.leP HN. have H := T_CcpGame.C95_interactive P n m B HP. apply: le_trans H _.
  have T := thirtythree _ _ HN. move: T. set w := (2%:R ^+ 103)%R. have W0 : (0 < w^-1)%R by rewrite invr_gt0; apply: exprn_gt0; rewrite ltr0n.
  clearbody w. rewrite (ler_pmul2r W0). exact: id.
Qed.
Print Assumptions C95_interactive_budget.
(** ... and an adversary of the left-or-right game with decryption tells left from right with a probability of at most 2^(k+12) / 2^103. *)
Theorem C95_cca_budget : forall P D n m B k, S_CcpCca.adversary_ok n m (Z.of_nat B) P -> (Nat.mul m B <= 2 ^ k)%coq_nat ->
  (`| T_CcpCca.pr_says true P D n - T_CcpCca.pr_says false P D n | <= 2%:R ^+ (k + 12) / 2%:R ^+ 103)%R.
Proof.
  move=> P D n m B k HP /ssrnat.leP HN. have H := T_CcpCca.C95_cca P D n m B HP. apply: le_trans H _.
  have T := thirtythree _ _ HN. move: T. set w := (2%:R ^+ 103)%R. have W0 : (0 < w^-1)%R by rewrite invr_gt0; apply: exprn_gt0; rewrite ltr0n.
  clearbody w. have E : k + 12 = (k + 11).+1 by rewrite -addnS. rewrite E (exprS _ (k + 11)) => T.
  rewrite (mulrA (2%:R)%R). apply: (ler_wpmul2r (ltW W0)). apply: (ler_wpmul2l (ler0n _ 2)). exact: T.
Qed.
Print Assumptions C95_cca_budget.
Example C95_interactive_budget_ex : (S_CcpWin.pr_win T_CcpGame.ex_player 20 <= 2%:R ^+ (6 + 11) / 2%:R ^+ 103)%R.
Proof. apply: (C95_interactive_budget T_CcpGame.ex_player 20 20 3 6 (proj1 T_CcpGame.ex_player_ok)). apply/Nat.leb_le. exact: erefl. Qed.
Example C95_cca_budget_ex D : (`| T_CcpCca.pr_says true T_CcpCca.ex_adversary D 20 - T_CcpCca.pr_says false T_CcpCca.ex_adversary D 20 | <= 2%:R ^+ (6 + 12) / 2%:R ^+ 103)%R.
Proof. apply: (C95_cca_budget T_CcpCca.ex_adversary D 20 20 3 6 (proj1 T_CcpCca.ex_adversary_ok)). apply/Nat.leb_le. exact: erefl. Qed.
