(** The interactive game of C99: counting. *)
From Coq Require Import ZArith List Lia.
From Verif Require Import Base M_Gcm S_Gcm T_Gcm T_Forge T_GcmPrivacy P_GcmExt P_GcmAuth P_Switch S_GcmPrp S_GcmAuth P_GcmPrp S_GcmGame S_GcmWin P_GcmGame.
From Verif Require P_GcmForge P_CcpWin.
From mathcomp Require Import all_ssreflect all_fingroup all_algebra.
Import ListNotations.
Import Order.TTheory GRing.Theory Num.Theory.
Set Implicit Arguments.
Unset Strict Implicit.
Unset Printing Implicit Defensive.
Local Open Scope nat_scope.
Notation rightb := P_GcmForge.rightb.

Section Game.
Variables (b : build) (n m B : nat) (P : player).
Hypothesis HP : player_ok b n m (Z.of_nat B) P.
Section Step.
Variable s : nat.
Hypothesis Hs : (s < n)%coq_nat.
Definition Rho (g : {ffun block -> block}) (h : block) : {ffun block -> block} :=
  [ffun x => block_of (rho b P s (as_cipher g) (bytes_of h) (bytes_of x))].
Definition Old (g : {ffun block -> block}) : block := block_of (old b P s (as_cipher g)).
Lemma Rho_cipher g h x : is_block x -> as_cipher (Rho g h) x = rho b P s (as_cipher g) (bytes_of h) x.
Proof.
  move=> Hx. rewrite {1}/as_cipher /Rho ffunE !bytes_of_K //.
  exact: (rho_block b P s _ (bytes_of h) (@as_cipher_block g) (bytes_of_block h) x Hx).
Qed.
Lemma old_block g : is_block (old b P s (as_cipher g)).
Proof.
  rewrite /old. case: (known _ _ _ _); apply: as_cipher_block; first exact: zero_block. apply: J0_block. exact: (att_nonce b n m _ P HP).
Qed.
Lemma Rho_back g h : Rho (Rho g h) (Old g) = g.
Proof.
  apply/ffunP => x. apply: bytes_of_inj. have Bx := bytes_of_block x. have Bh := bytes_of_block h. have Bg := @as_cipher_block g.
  have Br := rho_block b P s _ (bytes_of h) Bg Bh.
  have K : forall k : {ffun block -> block}, bytes_of (k x) = as_cipher k (bytes_of x) by move=> k; rewrite /as_cipher block_of_K.
  rewrite !K Rho_cipher // /Old bytes_of_K; last exact: old_block.
  rewrite (rho_ext b n m _ P HP s Hs (rho b P s (as_cipher g) (bytes_of h))) //.
  - exact: (rho_back b n m _ P HP s Hs).
  - exact: as_cipher_block.
  - move=> y Hy. exact: Rho_cipher.
Qed.
Lemma Rho_old g h : Old (Rho g h) = h.
Proof.
  have Bh := bytes_of_block h. have Bg := @as_cipher_block g. have Br := rho_block b P s _ (bytes_of h) Bg Bh.
  rewrite /Old (old_ext b n m _ P HP s Hs (rho b P s (as_cipher g) (bytes_of h))) //.
  - rewrite (rho_old b n m _ P HP s Hs) //. exact: block_of_K.
  - exact: as_cipher_block.
  - move=> y Hy. exact: Rho_cipher.
Qed.
Lemma Rho_sim g h : sim b (as_cipher (Rho g h)) P s = sim b (as_cipher g) P s.
Proof.
  have Bh := bytes_of_block h. have Bg := @as_cipher_block g. have Br := rho_block b P s _ (bytes_of h) Bg Bh.
  rewrite (sim_ext b n m _ P HP s Hs (rho b P s (as_cipher g) (bytes_of h))) //.
  - exact: (rho_sim b n m _ P HP s Hs _ _ Bg Bh s (le_n s)).
  - exact: as_cipher_block.
  - move=> y Hy. exact: Rho_cipher.
  - lia.
Qed.
Definition tries (f : list Z -> list Z) : bool := is_try (P (sim b f P s)).
Definition wins (f : list Z -> list Z) : bool := tries f && rightb f (att b P s f).
Lemma wins_few (g : {ffun block -> block}) : tries (as_cipher g) -> #|[set h | wins (as_cipher (Rho g h))]| <= B.
Proof.
  move=> Tg. have Bg := @as_cipher_block g.
  have Ea : P (sim b (as_cipher g) P s) = Decrypt (att b P s (as_cipher g)) by move: Tg; rewrite /tries /att; case: (P _).
  have Hok := proj1 HP (sim b (as_cipher g) P s). rewrite sim_length Ea in Hok. have [Hna [Hda [Hca _]]] := Hok Hs.
  have W : forall h, wins (as_cipher (Rho g h)) -> right_tag (rho b P s (as_cipher g) (bytes_of h)) (att b P s (as_cipher g)).
  { move=> h /andP [_]. have -> : att b P s (as_cipher (Rho g h)) = att b P s (as_cipher g) by rewrite /att Rho_sim.
    move=> /P_GcmForge.rightP R. have Br := rho_block b P s _ (bytes_of h) Bg (bytes_of_block h).
    have Q : right_tag (as_cipher (Rho g h)) (att b P s (as_cipher g)) <-> right_tag (rho b P s (as_cipher g) (bytes_of h)) (att b P s (as_cipher g)).
    { apply: right_ext => //; [exact: as_cipher_block| |]; apply: Rho_cipher; [exact: zero_block|exact: J0_block]. }
    exact/Q. }
  have [bad [Lb Hb]] := rho_bad b n m _ P HP s Hs (as_cipher g) Bg Ea.
  have Sb : (size (map block_of bad) <= B)%N by rewrite size_map; apply/ssrnat.leP; move: Lb; rewrite -[size bad]/(length bad); lia.
  apply: leq_trans Sb. apply: leq_trans (card_size _). apply: subset_leq_card. apply/subsetP => h. rewrite inE => /W R.
  rewrite -(block_of_K h). apply: In_map. apply: Hb => //. exact: bytes_of_block.
Qed.
Lemma wins_bound : #|[set g : {ffun block -> block} | wins (as_cipher g)]| * #|block| <= B * #|[set g : {ffun block -> block} | tries (as_cipher g)]|.
Proof.
  apply: (P_CcpWin.orbit_bound2 (rho := Rho) (old := Old)); [exact: Rho_back|exact: Rho_old| | |exact: wins_few].
  - move=> g h. by rewrite /tries Rho_sim.
  - by move=> g /andP [].
Qed.
End Step.

Lemma tries_few g : \sum_(s < n) (tries s (as_cipher g) : nat) <= m.
Proof.
  rewrite (P_CcpWin.count_tries (fun s => tries s (as_cipher g))). have H := proj2 HP (sim b (as_cipher g) P n) (sim_length _ _ _ _). apply/ssrnat.leP. apply: Nat.le_trans H.
  rewrite (filter_ext_in _ (fun i => tries i (as_cipher g))) //. move=> i /in_seq Hi. rewrite /tries sim_firstn //. lia.
Qed.
Definition any (f : list Z -> list Z) : bool := existsb (fun s => wins s f) (List.seq 0 n).
Lemma any_bound : #|[set g : {ffun block -> block} | any (as_cipher g)]| * #|block| <= m * B * #|{ffun block -> block}|.
Proof.
  have H : #|[set g : {ffun block -> block} | any (as_cipher g)]| <= \sum_(s < n) #|[set g : {ffun block -> block} | wins s (as_cipher g)]|.
  { rewrite -sum1_card (eq_bigr (fun s : 'I_n => \sum_(g : {ffun block -> block}) (wins s (as_cipher g) : nat))).
    - rewrite exchange_big /= big_mkcond. apply: leq_sum => g _. rewrite inE. case: ifP => // /existsb_exists [s [/in_seq Hs Ws]].
      have Ls : s < n by apply/ssrnat.ltP; lia.
      rewrite (bigD1 (Ordinal Ls)) //= Ws. exact: leq_addr.
    - move=> s _. rewrite -sum1_card big_mkcond /=. apply: eq_bigr => g _. rewrite inE. by case: (wins _ _). }
  have H2 : (\sum_(s < n) #|[set g : {ffun block -> block} | wins s (as_cipher g)]|) * #|block| <= m * B * #|{ffun block -> block}|.
  { rewrite big_distrl /=. apply: (leq_trans (n := \sum_(s < n) B * #|[set g : {ffun block -> block} | tries s (as_cipher g)]|)).
    - apply: leq_sum => s _. apply: wins_bound. apply/ssrnat.ltP. exact: ltn_ord.
    - rewrite -big_distrr /= [m * _]mulnC -mulnA leq_mul2l. apply/orP. right.
      rewrite (eq_bigr (fun s : 'I_n => \sum_(g : {ffun block -> block}) (tries s (as_cipher g) : nat))).
      + rewrite exchange_big /=. apply: (leq_trans (n := \sum_(g : {ffun block -> block}) m)).
        * apply: leq_sum => g _. exact: tries_few.
        * by rewrite sum_nat_const mulnC.
      + move=> s _. rewrite -sum1_card big_mkcond /=. apply: eq_bigr => g _. rewrite inE. by case: (tries _ _). }
  apply: leq_trans H2. by rewrite leq_mul2r H orbT.
Qed.
Lemma won_any f : block_fn f -> won (play b f P n) -> any f.
Proof.
  move=> Hf /win_sim [s [a [Hs [Ea Ra]]]]. apply/existsb_exists. exists s. split; first by apply/in_seq; lia.
  have Hok := proj1 HP (sim b f P s). rewrite sim_length Ea in Hok. have [Hna [Hda [Hca _]]] := Hok Hs.
  rewrite /wins /tries /att Ea. apply/andP. split; first by []. apply/P_GcmForge.rightP. exact: (accepted_right b).
Qed.

(** The simulated game as an adaptive algorithm; [K] says yes or no to what was seen and whether an attempt is accepted. *)
Section Algorithm.
Variable K : list event -> bool -> bool.
Fixpoint game (k : nat) (tr : list event) (tab : block -> block) (acc : bool) : tree block :=
  match k with
  | O => Leaf (K tr acc)
  | S k => match P tr with
    | Encrypt nonce d c => ask_all (points (mkq nonce d c)) tab
        (fun tab' => game k (app tr [respond b (as_cipher tab') (Encrypt nonce d c)]) tab' acc)
    | Decrypt a => ask_all [:: block_of (J0 (a_nonce a))] tab
        (fun tab' => game k (app tr [Verdict false]) tab' (acc || rightb (as_cipher tab') a))
    end
  end.
Definition whole : tree block := ask_all [:: block_of (repeat Z0 16)] id (fun tab => game n nil tab false).
Lemma eval_game f k : forall tab acc, (k <= n)%nat -> tab (block_of (repeat Z0 16)) = f (block_of (repeat Z0 16)) ->
  eval (game k (sim b (as_cipher f) P (n - k)) tab acc) f = K (sim b (as_cipher f) P n) (acc || existsb (fun s => wins s (as_cipher f)) (List.seq (n - k) k)).
Proof.
  elim: k => [|k IH] tab acc Hk H0; first by rewrite subn0 /= orbF.
  have E : (n - k = S (n - S k))%nat by rewrite subnSK.
  have Lt : (n - S k < n)%coq_nat by apply/ssrnat.ltP; rewrite ltn_subrL (leq_ltn_trans _ Hk).
  have Hok := proj1 HP (sim b (as_cipher f) P (n - S k)). rewrite sim_length in Hok. have {}Hok := Hok Lt.
  cbn [game List.seq existsb]. rewrite -E. rewrite [wins (n - S k) _]/wins /tries /att.
  have IH' := fun tab acc => IH tab acc (ltnW Hk). rewrite {1}E in IH'. cbn [sim] in IH'.
  move: Hok IH'. set tr := sim b _ P (n - S k). case: (P tr) => [nonce d c|a] Hok IH'.
  - move: Hok => [Hn [Hd [Hm [Hl _]]]]. apply: eval_ask_all => tab' H'.
    have Z' : tab' (block_of (repeat Z0 16)) = f (block_of (repeat Z0 16)) by apply: H'; right.
    have -> : respond b (as_cipher tab') (Encrypt nonce d c) = refuse b (as_cipher f) (Encrypt nonce d c).
    { rewrite /refuse !respond_mkq. congr Answer. apply: answer_ext => //; try exact: as_cipher_block.
      - apply: as_cipher_ext. apply: H'. left. by rewrite in_cons eqxx.
      - exact: as_cipher_ext.
      - move=> j Hj. apply: as_cipher_ext. apply: H'. left. rewrite in_cons. apply/orP. right.
        apply: In_map. exact: (ctrs_in (mkq nonce d c)). }
    exact: IH'.
  - move: Hok => [Hn [Hd [Hc _]]]. apply: eval_ask_all => tab' H'.
    have Z' : tab' (block_of (repeat Z0 16)) = f (block_of (repeat Z0 16)) by apply: H'; right.
    have R : rightb (as_cipher tab') a = rightb (as_cipher f) a.
    { have H : right_tag (as_cipher tab') a <-> right_tag (as_cipher f) a.
      { apply: right_ext => //; try exact: as_cipher_block; apply: as_cipher_ext; first exact: Z'. apply: H'. left. by rewrite in_cons eqxx. }
      apply/idP/idP => /P_GcmForge.rightP R; apply/P_GcmForge.rightP; by apply/H. }
    rewrite (IH' tab' _ Z') R orbA. by [].
Qed.
Lemma eval_whole f : eval whole f = K (sim b (as_cipher f) P n) (any (as_cipher f)).
Proof.
  apply: eval_ask_all => tab H. have := @eval_game f n tab false (leqnn n). rewrite subnn. apply. apply: H. left. by rewrite in_cons eqxx.
Qed.
Lemma asked_firstn tr k : forall i, (k <= i)%nat -> blocks_asked P (firstn i tr) k = blocks_asked P tr k.
Proof.
  elim: k => [|k IH] i Hi //=. rewrite IH ?(ltnW Hi) // firstn_firstn. by rewrite Nat.min_l // ; apply/ssrnat.leP; apply: ltnW.
Qed.
Definition cost (v : move) : nat := match v with Encrypt _ _ msg => S (Nat.div (Nat.add (length msg) 15) 16) | Decrypt _ => 1 end.
Lemma asked_snoc tr a : blocks_asked P (app tr [a]) (length (app tr [a])) = blocks_asked P tr (length tr) + cost (P tr).
Proof.
  rewrite app_length Nat.add_1_r. cbn [blocks_asked]. rewrite -(@asked_firstn _ _ (length tr)) // firstn_app Nat.sub_diag firstn_O app_nil_r firstn_all. by [].
Qed.
Lemma depth_game s k : forall tr tab acc, (length tr + k = n)%nat -> (forall tr', length tr' = n -> (blocks_asked P tr' n <= s)%nat) ->
  depth_le (s - blocks_asked P tr (length tr)) (game k tr tab acc) /\ (blocks_asked P tr (length tr) <= s)%nat.
Proof.
  elim: k => [|k IH] tr tab acc E Hs.
  { rewrite addn0 in E. split; first by case: (s - _). rewrite E. exact: Hs. }
  have G : forall a, (length (app tr [a]) + k = n)%nat by move=> a; rewrite app_length Nat.add_1_r addSnnS.
  have Bd : (blocks_asked P tr (length tr) + cost (P tr) <= s)%nat.
  { rewrite -(asked_snoc tr (Verdict false)). by case: (IH _ tab acc (G (Verdict false)) Hs). }
  split; last by apply: leq_trans Bd; apply: leq_addr.
  have -> : (s - blocks_asked P tr (length tr) = cost (P tr) + (s - (blocks_asked P tr (length tr) + cost (P tr))))%nat
    by rewrite subnDA subnKC // leq_subRL ?(leq_trans _ Bd) // leq_addr.
  have D : forall a tab acc, depth_le (s - (blocks_asked P tr (length tr) + cost (P tr))) (game k (app tr [a]) tab acc).
  { move=> a tab' acc'. rewrite -(asked_snoc tr a). by case: (IH _ tab' acc' (G a) Hs). }
  move: D. set e := s - _. move: e => e. cbn [game]. case: (P tr) => [nonce d c|a] D.
  - have -> : cost (Encrypt nonce d c) = size (points (mkq nonce d c)).
    { rewrite /points size_map /= -[size (ctrs _)]/(length (ctrs _)) ctrs_length. by []. }
    apply: depth_ask_all => tab'. exact: D.
  - apply: (@depth_ask_all [:: _]) => tab'. exact: D.
Qed.
Lemma depth_whole s : (forall tr', length tr' = n -> (blocks_asked P tr' n <= s)%nat) -> depth_le s whole.
Proof.
  move=> Hs. case: (@depth_game s n nil id false (add0n n) Hs) => _ H2. rewrite -(subnKC H2). apply: (@depth_ask_all [:: _]) => tab.
  by case: (@depth_game s n nil tab false (add0n n) Hs).
Qed.
End Algorithm.
Lemma win_bound s : (forall tr, length tr = n -> (blocks_asked P tr n <= s)%nat) ->
  (pr_win b P n <= ((m * B)%N%:R + (\sum_(j < s) j)%N%:R) / 2%:R ^+ 128)%R.
Proof.
  move=> Hs. have Ew := card_block. set w := (2%:R ^+ 128)%R in Ew *. clearbody w.
  have D := depth_whole (fun _ w => w) Hs.
  have := switching D. rewrite Ew.
  set Q1 := (#|[set g : {perm block} | eval (whole (fun _ w => w)) g]|%:R / _)%R. set Q := (#|[set g : {ffun block -> block} | eval (whole (fun _ w => w)) g]|%:R / _)%R. move=> H.
  have N0 : (0 < w)%R by rewrite -Ew ltr0n; exact: (P_GcmForge.type_gt0 (block_of nil)).
  have HQ : (Q <= (m * B)%N%:R / w)%R.
  { have F0 : (0 < #|{ffun block -> block}|%:R :> rat)%R by rewrite ltr0n; exact: P_GcmForge.ffun_gt0.
    rewrite /Q (ler_pdivr_mulr _ _ F0) mulrAC (ler_pdivl_mulr _ _ N0) -Ew -!natrM ler_nat.
    rewrite (_ : [set g : {ffun block -> block} | eval (whole (fun _ w => w)) g] = [set g : {ffun block -> block} | any (as_cipher g)]); first exact: any_bound.
    by apply/setP => g; rewrite !inE eval_whole. }
  have HP1 : (pr_win b P n <= Q1)%R.
  { have P0 : (0 < #|{perm block}|%:R :> rat)%R by rewrite ltr0n; exact: P_GcmForge.perm_gt0.
    have P1 : (0 < #|{perm block}|%:R^-1 :> rat)%R by rewrite invr_gt0.
    rewrite /pr_win /Q1 (ler_pmul2r P1) ler_nat. apply: subset_leq_card. apply/subsetP => g. rewrite !inE eval_whole.
    apply: won_any. exact: as_cipher_block. }
  rewrite mulrDl. apply: le_trans HP1 _. have -> : Q1 = (Q + (Q1 - Q))%R by rewrite addrC subrK.
  apply: ler_add => //. apply: le_trans H. exact: ler_norm.
Qed.
End Game.
