(** C99: what the bounds come to when a key is used for [n] moves of at most [B] hashed blocks each. *)
From Coq Require Import ZArith List Lia.
From Verif Require Import Base M_Gcm S_Gcm T_Gcm T_Forge T_GcmPrivacy S_GcmPrp S_GcmAuth.
From Verif Require S_GcmGame S_GcmWin S_GcmCca T_GcmGame T_GcmCca.
From mathcomp Require Import all_ssreflect all_fingroup all_algebra.
Import ListNotations.
Import Order.TTheory GRing.Theory Num.Theory.
Local Open Scope nat_scope.

(** A message's enciphered blocks are no more than its hashed ones. *)
Lemma cost_le data msg B : Z.le (hash_blocks data msg) (Z.of_nat B) -> (S (Nat.div (Nat.add (length msg) 15) 16) <= B)%coq_nat.
Proof.
  rewrite /hash_blocks /len => H. have Hd : Z.le Z0 (Z.div (Z.of_nat (length data) + Zpos 15) (Zpos 16))%Z by apply: Z.div_pos; lia.
  apply/Nat2Z.inj_le. rewrite Nat2Z.inj_succ Nat2Z.inj_div Nat2Z.inj_add. lia.
Qed.
Lemma game_asked b n m B P : S_GcmGame.player_ok b n m (Z.of_nat B) P -> forall tr, length tr = n ->
  (S_GcmGame.blocks_asked P tr n <= Nat.add 1 (Nat.mul n B))%coq_nat.
Proof.
  move=> [H _] tr Ht. have G : forall k, (k <= n)%coq_nat -> (S_GcmGame.blocks_asked P tr k <= Nat.add 1 (Nat.mul k B))%coq_nat.
  { elim=> [|k IH] Hk; first exact: le_n. cbn [S_GcmGame.blocks_asked]. have {}IH := IH ltac:(lia).
    have := H (firstn k tr). rewrite firstn_length Nat.min_l; last lia. move=> /(_ ltac:(lia)). case: (P _) => [nonce d c|a].
    - move=> [_ [_ [_ [_ [/cost_le HB _]]]]]. move: HB IH. move: (S _) (S_GcmGame.blocks_asked _ _ _) => u v. lia.
    - move=> [_ [_ [_ [/cost_le HB _]]]]. lia. }
  exact: (G n (le_n n)).
Qed.
Lemma cca_asked b n m B P : S_GcmCca.adversary_ok b n m (Z.of_nat B) P -> forall tr, length tr = n ->
  (S_GcmCca.blocks_asked P tr n <= Nat.add 1 (Nat.mul n B))%coq_nat.
Proof.
  move=> [H _] tr Ht. have G : forall k, (k <= n)%coq_nat -> (S_GcmCca.blocks_asked P tr k <= Nat.add 1 (Nat.mul k B))%coq_nat.
  { elim=> [|k IH] Hk; first exact: le_n. cbn [S_GcmCca.blocks_asked]. have {}IH := IH ltac:(lia).
    have := H (firstn k tr). rewrite firstn_length Nat.min_l; last lia. move=> /(_ ltac:(lia)). case: (P _) => [nonce d ml mr|a].
    - move=> [_ [_ [_ [_ [_ [_ [/cost_le HB _]]]]]]]. move: HB IH. move: (S _) (S_GcmCca.blocks_asked _ _ _) => u v. lia.
    - move=> [_ [_ [_ [/cost_le HB _]]]]. lia. }
  exact: (G n (le_n n)).
Qed.
Lemma arith N K : 2 <= K -> N <= 2 ^ K -> 2 * N + (1 + N) * N <= 2 ^ (2 * K).+1.
Proof.
  move=> HK HN. have H4 : 4 <= 2 ^ K by rewrite -[4]/(2 ^ 2) leq_exp2l.
  rewrite expnS (mulnC 2 K) expnM. move: HN H4. move: (2 ^ K) => X /ssrnat.leP HN /ssrnat.leP H4. rewrite -mulnn.
  apply/ssrnat.leP. move: HN H4. rewrite -!plusE -!multE. nia.
Qed.

Lemma half (x y z : nat) : x * 2 + y <= z * 2 -> (x%:R + y%:R / 2%:R <= z%:R :> rat)%R.
Proof.
  move=> H. have T0 : (0 < 2%:R :> rat)%R by rewrite ltr0n. have T1 : (2%:R != 0 :> rat)%R by rewrite pnatr_eq0.
  rewrite -[X in (X + _ <= _)%R](mulfK T1) -mulrDl (ler_pdivr_mulr _ _ T0) -!natrM -natrD ler_nat. exact: H.
Qed.
Lemma all_tries (A : nat -> bool) n : (length (List.filter A (List.seq 0 n)) <= n)%coq_nat.
Proof. apply: Nat.le_trans (T_GcmGame.flen _ _) _. rewrite seq_length. exact: le_n. Qed.

(** ** C99, with one budget: if the number of moves times the number of blocks hashed per move is at most 2^k, a player forges under a
    random permutation with a probability of at most 2^2k / 2^128, whatever it does ... *)
Theorem C99_interactive_budget : forall b P n m B k, S_GcmGame.player_ok b n m (Z.of_nat B) P -> (2 <= k)%coq_nat -> (Nat.mul n B <= 2 ^ k)%coq_nat ->
  (S_GcmWin.pr_win b P n <= 2%:R ^+ (2 * k) / 2%:R ^+ 128)%R.
Proof.
  move=> b P n m B k HP /ssrnat.leP Hk /ssrnat.leP HN. have HP' : S_GcmGame.player_ok b n n (Z.of_nat B) P.
  { split; first exact: (proj1 HP). move=> tr _. exact: all_tries. }
  have H := T_GcmGame.C99_interactive b P n n B _ HP' (game_asked b n n B P HP'). apply: le_trans H _.
  set w := (2%:R ^+ 128)%R. have W0 : (0 < w^-1)%R by rewrite invr_gt0; apply: exprn_gt0; rewrite ltr0n.
  clearbody w. rewrite (ler_pmul2r W0).
  rewrite -natrX. apply: half. move: HN. rewrite !plusE !multE. move: (n * B) => N HN.
  have -> : (1 + N - 1 = N)%N by rewrite add1n subn1. rewrite (mulnC N 2) (mulnC _ 2) -expnS. exact: arith.
Qed.
Print Assumptions C99_interactive_budget.
(** ... and an adversary of the left-or-right game with decryption tells left from right with a probability of at most 2^(2k+1) / 2^128. *)
Theorem C99_cca_budget : forall b P D n m B k, S_GcmCca.adversary_ok b n m (Z.of_nat B) P -> (2 <= k)%coq_nat -> (Nat.mul n B <= 2 ^ k)%coq_nat ->
  (`| T_GcmCca.pr_says b true P D n - T_GcmCca.pr_says b false P D n | <= 2%:R ^+ (2 * k).+1 / 2%:R ^+ 128)%R.
Proof.
  move=> b P D n m B k HP /ssrnat.leP Hk /ssrnat.leP HN. have HP' : S_GcmCca.adversary_ok b n n (Z.of_nat B) P.
  { split; first exact: (proj1 HP). move=> tr _. exact: all_tries. }
  have H := T_GcmCca.C99_cca b P D n n B _ HP' (cca_asked b n n B P HP'). apply: le_trans H _.
  set w := (2%:R ^+ 128)%R. have W0 : (0 < w^-1)%R by rewrite invr_gt0; apply: exprn_gt0; rewrite ltr0n.
  clearbody w. rewrite (ler_pmul2r W0). rewrite -natrX ler_nat.
  move: HN. rewrite !plusE !multE. move: (n * B) => N HN.
  have -> : (1 + N - 1 = N)%N by rewrite add1n subn1. exact: arith.
Qed.
Print Assumptions C99_cca_budget.
Example C99_interactive_budget_ex b : (S_GcmWin.pr_win b T_GcmGame.ex_player 20 <= 2%:R ^+ (2 * 6) / 2%:R ^+ 128)%R.
Proof. apply: (C99_interactive_budget b T_GcmGame.ex_player 20 20 3 6 (proj1 (T_GcmGame.ex_player_ok b))); apply/Nat.leb_le; exact: erefl. Qed.
Example C99_cca_budget_ex b D : (`| T_GcmCca.pr_says b true T_GcmCca.ex_adversary D 20 - T_GcmCca.pr_says b false T_GcmCca.ex_adversary D 20 | <= 2%:R ^+ (2 * 6).+1 / 2%:R ^+ 128)%R.
Proof. apply: (C99_cca_budget b T_GcmCca.ex_adversary D 20 20 3 6 (proj1 (T_GcmCca.ex_adversary_ok b))); apply/Nat.leb_le; exact: erefl. Qed.

(** So for [Gcm::<AesN>] with a random key: at most that, plus what AES and a random permutation differ by in the two games
    (by [C99_cca_experiment], those games are the ones with the FIPS 197 cipher). *)
Theorem C99_cca_budget_aes : forall E Nk b P D n m B k, S_GcmCca.adversary_ok b n m (Z.of_nat B) P -> (2 <= k)%coq_nat -> (Nat.mul n B <= 2 ^ k)%coq_nat ->
  (`| T_GcmCca.aes_says E Nk b true P D n - T_GcmCca.aes_says E Nk b false P D n | <=
   `| T_GcmCca.aes_says E Nk b true P D n - T_GcmCca.pr_says b true P D n | + `| T_GcmCca.aes_says E Nk b false P D n - T_GcmCca.pr_says b false P D n | + 2%:R ^+ (2 * k).+1 / 2%:R ^+ 128)%R.
Proof.
  move=> E Nk b P D n m B k HP Hk HN. have H := C99_cca_budget b P D n m B k HP Hk HN.
  set w := (_ / _)%R in H *. clearbody w. move: H. move: (T_GcmCca.aes_says _ _ _ true _ _ _) (T_GcmCca.aes_says _ _ _ false _ _ _) => a a'.
  move: (T_GcmCca.pr_says _ true _ _ _) (T_GcmCca.pr_says _ false _ _ _) => p p' H. apply: le_trans (ler_add (lexx _) H).
  have -> : (a - a' = (a - p) + (p' - a') + (p - p'))%R by rewrite -addrA [X in (_ = _ + X)%R]addrC !subrKA.
  apply: le_trans (ler_norm_add _ _) _. apply: ler_add => //. rewrite [X in (_ <= _ + X)%R]distrC. exact: ler_norm_add.
Qed.
Print Assumptions C99_cca_budget_aes.
