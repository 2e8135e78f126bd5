(** Forgeries under a random permutation. *)
From Coq Require Import ZArith List Lia.
From Verif Require Import Base M_Gcm S_Gcm T_Gcm T_Forge T_GcmPrivacy P_GcmExt P_GcmAuth P_Switch S_GcmPrp S_GcmAuth S_GcmForge P_GcmPrp.
From mathcomp Require Import all_ssreflect all_fingroup all_algebra.
Import ListNotations.
Import Order.TTheory GRing.Theory Num.Theory.
Set Implicit Arguments.
Unset Strict Implicit.
Unset Printing Implicit Defensive.

(** Counting by orbits. *)
Lemma orbit_bound (G X : finType) (rho : G -> X -> G) (old : G -> X) (S : pred G) (B : nat) :
  (forall g h, rho (rho g h) (old g) = g) -> (forall g h, old (rho g h) = h) -> (forall g, #|[set h | S (rho g h)]| <= B)%N ->
  (#|[set g | S g]| * #|X| <= B * #|G|)%N.
Proof.
  move=> H1 H2 H3.
  pose phi (p : G * X) := (rho p.1 p.2, old p.1).
  have phi_inj : injective phi by apply: (@inv_inj _ phi) => [[g h]]; rewrite /phi /= H1 H2.
  have -> : (#|[set g | S g]| * #|X| = #|[set p : G * X | S (phi p).1]|)%N.
  { transitivity #|setX [set g | S g] [set: X]|; first by rewrite cardsX cardsT.
    rewrite -(card_imset _ phi_inj). apply: eq_card => [[g h]]. rewrite [in RHS]inE. apply/imsetP/idP.
    - case=> [[g' h']]. rewrite !inE andbT /= => Sg [-> ->]. by rewrite /phi /= H1.
    - move=> Sg. exists (phi (g, h)); last by rewrite /phi /= H1 H2. by rewrite !inE andbT. }
  rewrite -sum1_card (partition_big (fun p : G * X => p.1) predT) //= mulnC -sum_nat_const.
  apply: leq_sum => g _. apply: leq_trans (H3 g). rewrite sum1_card.
  rewrite -(@card_imset _ _ (fun h : X => (g, h))); last by move=> h h' [].
  apply: subset_leq_card. apply/subsetP => [[g' h]] H. move: (H). rewrite unfold_in /= inE /= => /andP [Sg /eqP E]. rewrite E in Sg *. 
  by apply: imset_f; rewrite inE.
Qed.

Lemma type_gt0 (X : finType) (x : X) : (0 < #|X|)%N.
Proof. apply/card_gt0P. by exists x. Qed.
Lemma ffun_gt0 (X : finType) : (0 < #|{ffun X -> X}|)%N.
Proof. apply/card_gt0P. by exists [ffun x => x]. Qed.
Lemma perm_gt0 (X : finType) : (0 < #|{perm X}|)%N.
Proof. apply/card_gt0P. by exists 1%g. Qed.

Section Forge.
Variables (b : build) (n m B : nat) (A : attacker) (F : forger).
Hypothesis HA : admissible n A.
Hypothesis HF : forger_ok b n m (Z.of_nat B) A F.
Let run f := lr_run b true A f n.
Definition rightb (f : list Z -> list Z) (a : attempt) : bool :=
  if list_eq_dec Z.eq_dec (a_tag a) (gcm_auth_tag f (a_nonce a) (a_data a) (a_ct a)) then true else false.
Lemma rightP f a : rightb f a = true <-> right_tag f a.
Proof. rewrite /rightb /right_tag. by case: list_eq_dec. Qed.
Definition Rho (j : nat) (g : {ffun block -> block}) (h : block) : {ffun block -> block} :=
  [ffun x => block_of (rho b n A F j (as_cipher g) (bytes_of h) (bytes_of x))].
Definition Old (j : nat) (g : {ffun block -> block}) : block := block_of (old b n A F j (as_cipher g)).
Lemma Rho_cipher j g h x : is_block x -> as_cipher (Rho j g h) x = rho b n A F j (as_cipher g) (bytes_of h) x.
Proof.
  move=> Hx. rewrite {1}/as_cipher /Rho ffunE !bytes_of_K //. apply: (rho_block b n A F) => //; [exact: as_cipher_block|exact: bytes_of_block].
Qed.
(** Everything depends on the values at blocks only. *)
Section Ext.
Variables f f' : list Z -> list Z.
Hypotheses (Hf : block_fn f) (Hf' : block_fn f') (E : forall x, is_block x -> f' x = f x).
Lemma ext_run : run f' = run f.
Proof. exact: (@run_ext b true A f f' n HA Hf Hf' E n (le_n n)). Qed.
Lemma ext_att j : att b n A F f' j = att b n A F f j.
Proof. rewrite /att. congr (nth_error (F _) j). exact: ext_run. Qed.
Lemma ext_qs : queries b true A f' n = queries b true A f n.
Proof. apply: queries_ext. exact: ext_run. Qed.
Lemma ext_known a : known b n A f' a = known b n A f a.
Proof. by rewrite /known ext_qs. Qed.
Lemma ext_old j : old b n A F j f' = old b n A F j f.
Proof.
  rewrite /old ext_att. case Ea: (att _ _ _ _ _ _) => [a|]; last by apply: E; exact: zero_block.
  rewrite ext_known. case: known; first by apply: E; exact: zero_block. apply: E. apply: J0_block.
  by case: (att_ok _ _ _ _ _ _ HF _ _ _ Ea) => _ [].
Qed.
Lemma ext_rho j h x : is_block x -> rho b n A F j f' h x = rho b n A F j f h x.
Proof.
  move=> Hx. rewrite /rho ext_att ext_qs.
  have R : rekey (queries b true A f n) f' h x = rekey (queries b true A f n) f h x.
  { rewrite /rekey. case: list_eq_dec => // _. case Ef: (List.find _ _) => [q|]; last exact: E.
    have [Hq _] := find_some _ _ Ef. have [Hn [Hd Hm]] := proj2 (qs_good b n A HA f) q Hq.
    have -> : hinput f' q = hinput f q.
    { rewrite /hinput. congr (ghash_input _ _). apply: ct_ctr => // j' _. apply: E. exact: ctr_block. }
    rewrite E // E //. exact: zero_block. }
  case Ea: (att _ _ _ _ _ _) => [a|]; last exact: R. rewrite ext_known. case: known; first exact: R.
  rewrite /set_at. case: list_eq_dec => // _. exact: E.
Qed.
Lemma ext_right a : gcm_nonce (a_nonce a) -> gcm_data (a_data a) -> gcm_message (a_ct a) -> rightb f' a = rightb f a.
Proof.
  move=> Hn Hd Hm. have H : right_tag f' a <-> right_tag f a.
  { apply: right_ext => //; apply: E; [exact: zero_block|exact: J0_block]. }
  apply/idP/idP => /rightP R; apply/rightP; by apply/H.
Qed.
End Ext.
Lemma Rho_back j g h : Rho j (Rho j g h) (Old j g) = g.
Proof.
  apply/ffunP => x. apply: bytes_of_inj. have Bx := bytes_of_block x. have Bh := bytes_of_block h. have Bg := @as_cipher_block g.
  have K : forall k : {ffun block -> block}, bytes_of (k x) = as_cipher k (bytes_of x) by move=> k; rewrite /as_cipher block_of_K.
  rewrite !K Rho_cipher //. have Bo : is_block (old b n A F j (as_cipher g)).
  { rewrite /old. case Ea: (att _ _ _ _ _ _) => [a|]; last by apply: Bg; exact: zero_block.
    case: known; apply: Bg; first exact: zero_block. apply: J0_block. by case: (att_ok _ _ _ _ _ _ HF _ _ _ Ea) => _ []. }
  rewrite /Old bytes_of_K // (@ext_rho (rho b n A F j (as_cipher g) (bytes_of h))) //.
  - exact: (rho_back b n m _ A F HA HF).
  - exact: rho_block.
  - exact: as_cipher_block.
  - move=> y Hy. exact: Rho_cipher.
Qed.
Lemma Rho_old j g h : Old j (Rho j g h) = h.
Proof.
  have Bh := bytes_of_block h. have Bg := @as_cipher_block g.
  rewrite /Old (@ext_old (rho b n A F j (as_cipher g) (bytes_of h))).
  - rewrite (rho_old b n m _ A F HA HF) //. exact: block_of_K.
  - exact: rho_block.
  - exact: as_cipher_block.
  - move=> y Hy. exact: Rho_cipher.
Qed.
Definition wins (j : nat) (f : list Z -> list Z) : bool := match att b n A F f j with Some a => rightb f a | None => false end.
Lemma wins_few j g : (#|[set h | wins j (as_cipher (Rho j g h))]| <= B)%N.
Proof.
  have Bg := @as_cipher_block g.
  have W : forall h, wins j (as_cipher (Rho j g h)) -> exists a, att b n A F (as_cipher g) j = Some a /\ right_tag (rho b n A F j (as_cipher g) (bytes_of h)) a.
  { move=> h. have Bh := bytes_of_block h. have Br : block_fn (rho b n A F j (as_cipher g) (bytes_of h)) by exact: rho_block.
    rewrite /wins (@ext_att (rho b n A F j (as_cipher g) (bytes_of h))) //; [|exact: as_cipher_block|by move=> y Hy; exact: Rho_cipher].
    rewrite (rho_att b n m _ A F HA HF) //. case Ea: (att _ _ _ _ _ _) => [a|] // R. exists a. split=> //.
    case: (att_ok _ _ _ _ _ _ HF _ _ _ Ea) => _ [Hn [Hd [Hc _]]].
    apply/rightP. rewrite -R. symmetry. apply: ext_right => //; [exact: as_cipher_block|by move=> y Hy; exact: Rho_cipher]. }
  case Ea: (att b n A F (as_cipher g) j) => [a|].
  - have [bad [Lb Hb]] := rho_bad b n m _ A F HA HF j _ a Bg Ea.
    have Sb : (size (map block_of bad) <= B)%N by rewrite size_map; apply/ssrnat.leP; move: Lb; rewrite -[size bad]/(length bad); lia.
    apply: leq_trans Sb. apply: leq_trans (card_size _). apply: subset_leq_card. apply/subsetP => h. rewrite inE => /W [a' []].
    rewrite Ea => [] [<-] R. rewrite -(block_of_K h). apply: In_map. apply: Hb => //. exact: bytes_of_block.
  - rewrite (_ : [set h | _] = set0) ?cards0 //. apply/setP => h. rewrite !inE. apply/negP => /W [a []]. by rewrite Ea.
Qed.
Lemma wins_bound j : (#|[set g : {ffun block -> block} | wins j (as_cipher g)]| * #|block| <= B * #|{ffun block -> block}|)%N.
Proof. apply: (orbit_bound (rho := Rho j) (old := Old j)); [exact: Rho_back|exact: Rho_old|exact: wins_few]. Qed.

(** All attempts. *)
Definition any (tr : list reply) (f : list Z -> list Z) : bool := existsb (rightb f) (F tr).
Lemma any_wins f : any (run f) f -> exists j, (j < m)%N /\ wins j f.
Proof.
  move=> /existsb_exists [a [Ha R]]. have [j Ej] := In_nth_error _ _ Ha. exists j. split.
  - have [L _] := proj2 HF (run f) (run_length _ _ _ _ _). apply/ssrnat.ltP. have := proj1 (nth_error_Some (F (run f)) j). rewrite Ej => H.
    have := H ltac:(discriminate). lia.
  - by rewrite /wins /att -/(run f) Ej.
Qed.
Lemma any_bound : (#|[set g : {ffun block -> block} | any (run (as_cipher g)) (as_cipher g)]| * #|block| <= m * B * #|{ffun block -> block}|)%N.
Proof.
  have H : (#|[set g : {ffun block -> block} | any (run (as_cipher g)) (as_cipher g)]| <= \sum_(j < m) #|[set g : {ffun block -> block} | wins j (as_cipher g)]|)%N.
  { rewrite -sum1_card (eq_bigr (fun j : 'I_m => \sum_(g : {ffun block -> block}) (wins j (as_cipher g) : nat)%N)).
    - rewrite exchange_big /= big_mkcond. apply: leq_sum => g _. rewrite inE. case: ifP => // /any_wins [j [Hj Wj]].
      rewrite (bigD1 (Ordinal Hj)) //= Wj. exact: leq_addr.
    - move=> j _. rewrite -sum1_card big_mkcond /=. apply: eq_bigr => g _. rewrite inE. by case: (wins _ _). }
  have H2 : ((\sum_(j < m) #|[set g : {ffun block -> block} | wins j (as_cipher g)]|) * #|block| <= m * B * #|{ffun block -> block}|)%N.
  { rewrite big_distrl /=. have -> : (m * B * #|{ffun block -> block}| = \sum_(j < m) B * #|{ffun block -> block}|)%N by rewrite sum_nat_const card_ord mulnA.
    apply: leq_sum => j _. exact: wins_bound. }
  apply: leq_trans H2. by rewrite leq_mul2r H orbT.
Qed.

(** The game as an adaptive algorithm. *)
Definition last_part (tr : list reply) (tab : block -> block) : tree block :=
  ask_all (map (fun a => block_of (J0 (a_nonce a))) (F tr)) tab (fun tab' => Leaf (any tr (as_cipher tab'))).
Lemma eval_last f tab : tab (block_of (repeat Z0 16)) = f (block_of (repeat Z0 16)) ->
  eval (last_part (run (as_cipher f)) tab) f = any (run (as_cipher f)) (as_cipher f).
Proof.
  move=> H0. apply: eval_ask_all => tab' H'. cbn [eval]. rewrite /any.
  have [_ HFa] := proj2 HF (run (as_cipher f)) (run_length _ _ _ _ _).
  have : forall a, In a (F (run (as_cipher f))) -> rightb (as_cipher tab') a = rightb (as_cipher f) a.
  { move=> a Ia. case: (HFa a Ia) => Hn [Hd [Hc _]]. have H : right_tag (as_cipher tab') a <-> right_tag (as_cipher f) a.
    { apply: right_ext => //; try exact: as_cipher_block; apply: as_cipher_ext; apply: H'; first by right.
      left. elim: (F _) Ia => //= a' c IH [->|Hc']; rewrite in_cons ?eqxx // (IH Hc'). exact: orbT. }
    apply/idP/idP => /rightP R; apply/rightP; by apply/H. }
  elim: (F _) => //= a c IH H. rewrite (H a (or_introl erefl)) IH // => a' Ha'. apply: H. by right.
Qed.
Lemma depth_last tr tab : length tr = n -> depth_le m (last_part tr tab).
Proof.
  move=> E. have [L _] := proj2 HF tr E. move/ssrnat.leP: L => L. rewrite -(subnK L). apply: depth_mono.
  have -> : length (F tr) = (size (map (fun a => block_of (J0 (a_nonce a))) (F tr)) + 0)%N by rewrite size_map addn0.
  exact: depth_ask_all.
Qed.
Lemma forge_bound s : (forall tr, length tr = n -> (blocks_used A tr n <= s)%nat) ->
  (pr_forge b A F n <= ((m * B)%N%:R + (\sum_(j < s + m) j)%N%:R) / 2%:R ^+ 128)%R.
Proof.
  move=> Hs. have Ew := card_block. set w := (2%:R ^+ 128)%R in Ew *. clearbody w. pose t := whole b true A last_part n.
  have D : depth_le (s + m) t by apply: depth_whole => // tr tab; apply: depth_last.
  have Ev f : eval t f = any (run (as_cipher f)) (as_cipher f) by apply: eval_whole => // tab; apply: eval_last.
  have := switching D. rewrite Ew.
  set P := (#|[set g : {perm block} | eval t g]|%:R / _)%R. set Q := (#|[set g : {ffun block -> block} | eval t g]|%:R / _)%R. move=> H.
  have N0 : (0 < w)%R by rewrite -Ew ltr0n; exact: (type_gt0 (block_of nil)).
  have HQ : (Q <= (m * B)%N%:R / w)%R.
  { have F0 : (0 < #|{ffun block -> block}|%:R :> rat)%R by rewrite ltr0n; exact: ffun_gt0.
    rewrite /Q (ler_pdivr_mulr _ _ F0) mulrAC (ler_pdivl_mulr _ _ N0) -Ew -!natrM ler_nat.
    rewrite (_ : [set g : {ffun block -> block} | eval t g] = [set g : {ffun block -> block} | any (run (as_cipher g)) (as_cipher g)]); first exact: any_bound.
    by apply/setP => g; rewrite !inE Ev. }
  have HP : (pr_forge b A F n <= P)%R.
  { have P0 : (0 < #|{perm block}|%:R :> rat)%R by rewrite ltr0n; exact: perm_gt0.
    have P1 : (0 < #|{perm block}|%:R^-1 :> rat)%R by rewrite invr_gt0.
    rewrite /pr_forge /P (ler_pmul2r P1) ler_nat. apply: subset_leq_card. apply/subsetP => g. rewrite !inE Ev.
    move=> /existsb_exists [a [Ia Ha]]. apply/existsb_exists. exists a. split=> //. apply/rightP.
    apply: (accepted_right b n m _ A F HF) => //. exact: as_cipher_block. }
  rewrite mulrDl. apply: le_trans HP _. have -> : P = (Q + (P - Q))%R by rewrite addrC subrK.
  apply: ler_add => //. apply: le_trans H. exact: ler_norm.
Qed.
End Forge.
