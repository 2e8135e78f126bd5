(** Forgeries of ChaCha20-Poly1305 under uniformly random blocks: counting. *)
From Coq Require Import ZArith List Lia.
From Verif Require Import Base S_ChaCha T_Ccp T_CcpPrivacy S_GcmPrp S_CcpAuth S_CcpForge P_CcpAuth.
From Verif Require BaseFacts P_GcmPrp P_GcmForge.
From mathcomp Require Import all_ssreflect all_fingroup all_algebra.
Import ListNotations.
Import Order.TTheory GRing.Theory Num.Theory.
Set Implicit Arguments.
Unset Strict Implicit.
Unset Printing Implicit Defensive.
Local Open Scope nat_scope.

(** ** Output blocks as lists of bytes *)
Definition oblock_of (l : list Z) : oblock := [tuple inord (Z.to_nat (List.nth i l Z0)) | i < 64].
Definition is_oblock (l : list Z) : Prop := length l = 64%coq_nat /\ bytes l.
Lemma obytes_ok y : is_oblock (obytes_of y).
Proof.
  split.
  - rewrite /obytes_of List.map_length. exact: size_tuple y.
  - apply Forall_forall => z /in_map_iff [i [<- _]]. have := ltn_ord i => /ssrnat.ltP. rewrite /byte_ok. lia.
Qed.
Lemma obytes_K l : is_oblock l -> obytes_of (oblock_of l) = l.
Proof.
  move=> [L B]. apply: (nth_ext _ _ Z0 Z0); first by rewrite (proj1 (obytes_ok _)) L.
  move=> n. rewrite (proj1 (obytes_ok _)) => /ssrnat.ltP Hn.
  rewrite /obytes_of P_GcmPrp.map_List P_GcmPrp.nth_List (nth_map (inord 0 : 'I_256)) ?size_tuple //.
  have -> : nth (inord 0 : 'I_256) (oblock_of l) n = tnth (oblock_of l) (Ordinal Hn) by rewrite (tnth_nth (inord 0)).
  rewrite /oblock_of tnth_mktuple.
  have Hb : byte_ok (List.nth n l Z0) by apply: BaseFacts.bytes_nth. move: Hb. rewrite /byte_ok. set v := List.nth n l Z0 => Hb.
  have -> : nat_of_ord (inord (Z.to_nat v) : 'I_256) = Z.to_nat v by apply: inordK; apply/ssrnat.ltP; lia.
  apply: Z2Nat.id; lia.
Qed.
Lemma obytes_inj : injective obytes_of.
Proof.
  move=> x y H. apply: val_inj. move: H. rewrite /obytes_of !P_GcmPrp.map_List => H. apply: (@inj_map _ _ (fun i : 'I_256 => Z.of_nat i)); last exact: H.
  move=> i j /Nat2Z.inj E. exact: val_inj.
Qed.
Lemma as_blocks_good g : good_blocks (as_blocks g).
Proof. move=> c nonce _ _. exact: obytes_ok. Qed.

(** ** The input block of a counter and a nonce *)
Definition two32 : Z := Z.pow (Zpos 2) (Zpos 32).
Definition input_of (c : Z) (nonce : list Z) : list Z := app (le_encode 4 c) nonce.
Lemma input_block c nonce : chacha_nonce nonce -> T_Gcm.is_block (input_of c nonce).
Proof.
  move=> [L B]. split; first by rewrite /input_of app_length BaseFacts.le_encode_length L.
  apply BaseFacts.bytes_app. split=> //. exact: BaseFacts.le_encode_bytes.
Qed.
Lemma input_counter c nonce : Z.le Z0 c /\ Z.lt c two32 -> le_decode (firstn 4 (input_of c nonce)) = c.
Proof.
  move=> Hc. rewrite /input_of firstn_app BaseFacts.le_encode_length Nat.sub_diag firstn_O app_nil_r firstn_all2 ?BaseFacts.le_encode_length; last exact: le_n.
  rewrite BaseFacts.le_decode_encode. exact: Z.mod_small.
Qed.
Lemma input_nonce c nonce : skipn 4 (input_of c nonce) = nonce.
Proof. by rewrite /input_of skipn_app BaseFacts.le_encode_length Nat.sub_diag skipn_O skipn_all2 ?BaseFacts.le_encode_length; last exact: le_n. Qed.
Lemma block_counter x : let c := le_decode (firstn 4 (bytes_of x)) in (Z.le Z0 c /\ Z.lt c two32) /\ chacha_nonce (skipn 4 (bytes_of x)) /\
  input_of c (skipn 4 (bytes_of x)) = bytes_of x.
Proof.
  have [L B] := P_GcmPrp.bytes_of_block x. move: L B. set l := bytes_of x => L B c.
  have L4 : length (firstn 4 l) = 4%coq_nat by rewrite firstn_length L.
  have B4 : bytes (firstn 4 l) by exact: BaseFacts.bytes_firstn.
  split; [|split].
  - have := BaseFacts.le_decode_range (firstn 4 l) B4. by rewrite /len L4.
  - split; [by rewrite skipn_length L|exact: BaseFacts.bytes_skipn].
  - rewrite /input_of /c. have := BaseFacts.le_encode_decode (firstn 4 l) B4. rewrite L4 => ->. exact: firstn_skipn.
Qed.

(** ** How many half keys have one point *)
Definition rest (h : block) : 'I_16 * 'I_4 * ('I_16 * 'I_4) * ('I_16 * 'I_4) * 'I_16 :=
  let v a w := Z.to_nat (bits_at (le_decode (bytes_of h)) (Zpos a, Zpos w)) in
  (inord (v 28 4)%positive, inord (v 32 2)%positive, (inord (v 60 4)%positive, inord (v 64 2)%positive),
   (inord (v 92 4)%positive, inord (v 96 2)%positive), inord (v 124 4)%positive).
Lemma inord_inj m x y : (x < m.+1) -> (y < m.+1) -> inord x = inord y :> 'I_m.+1 -> x = y.
Proof. move=> Hx Hy E. by rewrite -(inordK Hx) -(inordK Hy) E. Qed.
Lemma bits_inj (h h' : list Z) (a w : positive) (m : nat) : Z.pow (Zpos 2) (Zpos w) = Z.of_nat m.+1 ->
  inord (Z.to_nat (bits_at (le_decode h) (Zpos a, Zpos w))) = inord (Z.to_nat (bits_at (le_decode h') (Zpos a, Zpos w))) :> 'I_m.+1 ->
  bits_at (le_decode h) (Zpos a, Zpos w) = bits_at (le_decode h') (Zpos a, Zpos w).
Proof.
  move=> Em. have H : Z.le Z0 (Zpos w) by lia. have R (z : Z) := bits_at_range z (Zpos a) (Zpos w) H. rewrite Em in R.
  have R1 := R (le_decode h). have R2 := R (le_decode h'). set x := bits_at _ _ in R1 *. set y := bits_at _ _ in R2 *.
  move=> /inord_inj E. apply: Z2Nat.inj; [lia|lia|]. apply: E; apply/ssrnat.ltP; lia.
Qed.
Lemma rest_inj h h' : point (bytes_of h) = point (bytes_of h') -> rest h = rest h' -> h = h'.
Proof.
  move=> Ep. rewrite /rest => [[E1 E2 E3 E4 E5 E6 E7]]. apply: P_GcmPrp.bytes_of_inj. apply: point_inj => //; try exact: P_GcmPrp.bytes_of_block.
  rewrite /cleared. cbn [List.map]. by repeat (apply: f_equal2; [by apply: (bits_inj _ _); [|eassumption]|]).
Qed.
Definition fibre : nat := #|{: 'I_16 * 'I_4 * ('I_16 * 'I_4) * ('I_16 * 'I_4) * 'I_16}|.
Lemma few_points p : #|[set h : block | Z.eqb (point (bytes_of h)) p]| <= fibre.
Proof.
  rewrite -(card_in_imset (f := rest)); first exact: max_card.
  move=> h h'. rewrite !inE => /Z.eqb_eq E /Z.eqb_eq E'. apply: rest_inj. by rewrite E E'.
Qed.
Lemma few_bad bad : #|[set h : block | existsb (Z.eqb (point (bytes_of h))) bad]| <= length bad * fibre.
Proof.
  elim: bad => [|p bad IH].
  - apply: (leq_trans (n := #|(set0 : {set block})|)); last by rewrite cards0. apply: subset_leq_card. apply/subsetP => h. by rewrite !inE.
  - apply: (leq_trans (n := #|[set h : block | Z.eqb (point (bytes_of h)) p] :|: [set h : block | existsb (Z.eqb (point (bytes_of h))) bad]|)).
    + apply: subset_leq_card. apply/subsetP => h. by rewrite !inE.
    + apply: leq_trans (leq_card_setU _ _) _. cbn [length]. rewrite mulSn. apply: leq_add => //. exact: few_points.
Qed.
Lemma fibre_eq : (fibre%:R = 2%:R ^+ 22 :> rat)%R.
Proof.
  rewrite /fibre !card_prod !card_ord !natrM.
  have E16 : (16%:R = 2%:R ^+ 4 :> rat)%R by rewrite -natrX.
  have E4 : (4%:R = 2%:R ^+ 2 :> rat)%R by rewrite -natrX.
  rewrite E16 E4 -!exprD. exact: erefl.
Qed.
Lemma fibre_gt0 : 0 < fibre.
Proof. apply/card_gt0P. by exists (ord0, ord0, (ord0, ord0), (ord0, ord0), ord0). Qed.

Section Forge.
Variables (n m B : nat) (A : attacker) (G : forger).
Hypothesis HA : admissible n A.
Hypothesis HG : forger_ok n m (Z.of_nat B) A G.
Let run F := lr_run (seal the_mac F) true A n.
Definition Rho (j : nat) (g : {ffun block -> oblock}) (h : block) : {ffun block -> oblock} :=
  [ffun x => oblock_of (rho n A G j (as_blocks g) (bytes_of h) (le_decode (firstn 4 (bytes_of x))) (skipn 4 (bytes_of x)))].
Definition Old (j : nat) (g : {ffun block -> oblock}) : block := block_of (old n A G j (as_blocks g)).
Lemma Rho_blocks j g h c nonce : Z.le Z0 c /\ Z.lt c two32 -> chacha_nonce nonce ->
  as_blocks (Rho j g h) c nonce = rho n A G j (as_blocks g) (bytes_of h) c nonce.
Proof.
  move=> Hc Hn. rewrite {1}/as_blocks -/(input_of c nonce) /Rho ffunE P_GcmPrp.bytes_of_K; last exact: input_block.
  rewrite input_counter // input_nonce. apply: obytes_K.
  have H := rho_good n m _ A G HG j _ (bytes_of h) (@as_blocks_good g) (P_GcmPrp.bytes_of_block h). exact: (H c nonce Hc Hn).
Qed.
Lemma old_b16 j g : b16 (old n A G j (as_blocks g)).
Proof.
  have [L Bk] := otk_ok n m A (as_blocks g) (a_nonce (att n A G (as_blocks g) j)) (@as_blocks_good g) (att_nonce n m _ A G HG _ j).
  rewrite /old. case: query_of => [q|].
  - split; [by rewrite firstn_length L|exact: BaseFacts.bytes_firstn].
  - split; [by rewrite skipn_length L|exact: BaseFacts.bytes_skipn].
Qed.
Lemma as_blocks_inj (g g' : {ffun block -> oblock}) :
  (forall c nonce, Z.le Z0 c /\ Z.lt c two32 -> chacha_nonce nonce -> as_blocks g' c nonce = as_blocks g c nonce) -> g' = g.
Proof.
  move=> H. apply/ffunP => x. apply: obytes_inj. have [Hc [Hn Ex]] := block_counter x. have := H _ _ Hc Hn.
  rewrite /as_blocks -/(input_of _ _) Ex P_GcmPrp.block_of_K. exact.
Qed.
Lemma Rho_back j g h : Rho j (Rho j g h) (Old j g) = g.
Proof.
  apply: as_blocks_inj => c nonce Hc Hn. have Bg := @as_blocks_good g. have Bh : b16 (bytes_of h) by exact: P_GcmPrp.bytes_of_block.
  rewrite Rho_blocks // /Old P_GcmPrp.bytes_of_K; last exact: old_b16.
  rewrite (rho_ext n m _ A G HA HG (rho n A G j (as_blocks g) (bytes_of h))) //; last by move=> c' n' Hc' Hn'; exact: Rho_blocks.
  exact: (rho_back n m _ A G HA HG).
Qed.
Lemma Rho_old j g h : Old j (Rho j g h) = h.
Proof.
  have Bg := @as_blocks_good g. have Bh : b16 (bytes_of h) by exact: P_GcmPrp.bytes_of_block.
  rewrite /Old (old_ext n m _ A G HA HG (rho n A G j (as_blocks g) (bytes_of h))); last by move=> c' n' Hc' Hn'; exact: Rho_blocks.
  rewrite (rho_old n m _ A G HA HG) //. exact: P_GcmPrp.block_of_K.
Qed.
Definition wins (j : nat) (F : blocks) : bool := (j < length (G (run F))) && accepted F (att n A G F j).
Definition bound : nat := Z.to_nat (Z.mul (Zpos 8712) (Z.of_nat B)) * fibre.
Lemma wins_few j g : #|[set h | wins j (as_blocks (Rho j g h))]| <= bound.
Proof.
  have Bg := @as_blocks_good g.
  have W : forall h, wins j (as_blocks (Rho j g h)) -> (j < length (G (run (as_blocks g)))) /\
     accepted (rho n A G j (as_blocks g) (bytes_of h)) (att n A G (as_blocks g) j) = true.
  { move=> h. have Bh : b16 (bytes_of h) by exact: P_GcmPrp.bytes_of_block. have X c' n' := @Rho_blocks j g h c' n'.
    rewrite /wins (att_ext n m _ A G HA HG (rho n A G j (as_blocks g) (bytes_of h))) // /run
      (run_ext n m _ A G HA HG (rho n A G j (as_blocks g) (bytes_of h))) //.
    rewrite (rho_att n m _ A G HA HG) // (rho_run n m _ A G HA HG) // => /andP [Hj E]. split=> //.
    rewrite -E. symmetry. apply: (accepted_ext n m (Z.of_nat B) A); [by move=> c' n' H1 H2; exact: X|exact: (att_nonce n m _ A G HG)]. }
  case Hj: (j < length (G (run (as_blocks g)))).
  - have Ia : In (att n A G (as_blocks g) j) (G (run (as_blocks g))) by apply: nth_In; apply/ssrnat.ltP.
    case: (rho_bad n m _ A G HA HG j (as_blocks g) Bg Ia) => [[bad [Lb Hb]]|[k Hk]].
    + apply: (leq_trans (n := length bad * fibre)).
      * apply: leq_trans (few_bad bad). apply: subset_leq_card. apply/subsetP => h. rewrite !inE => /W [_ E].
        apply/existsb_exists. exists (point (bytes_of h)). split; [|exact: Z.eqb_refl]. apply: Hb => //. exact: P_GcmPrp.bytes_of_block.
      * rewrite /bound leq_mul2r. apply/orP. right. apply/ssrnat.leP. move: Lb. lia.
    + apply: (leq_trans (n := #|[set block_of k]|)).
      * apply: subset_leq_card. apply/subsetP => h. rewrite !inE => /W [_ E]. apply/eqP.
        by rewrite -(Hk (bytes_of h) (P_GcmPrp.bytes_of_block h) E) P_GcmPrp.block_of_K.
      * rewrite cards1 /bound muln_gt0. apply/andP. split; last exact: fibre_gt0.
        have [_ H] := proj2 HG (run (as_blocks g)) (rl _ _ _ _ _). have [_ [_ [_ [Hp _]]]] := H _ Ia.
        apply/ssrnat.ltP. move: (hash_blocks_pos m A (a_data (att n A G (as_blocks g) j)) (a_ct (att n A G (as_blocks g) j))) Hp. lia.
  - rewrite (_ : [set h | _] = set0) ?cards0 //. apply/setP => h. rewrite !inE. apply/negP => /W [Hj' _]. by rewrite Hj' in Hj.
Qed.
Lemma wins_bound j : #|[set g : {ffun block -> oblock} | wins j (as_blocks g)]| * #|block| <= bound * #|{ffun block -> oblock}|.
Proof. apply: (P_GcmForge.orbit_bound (rho := Rho j) (old := Old j)); [exact: Rho_back|exact: Rho_old|exact: wins_few]. Qed.

Definition any (F : blocks) : bool := existsb (accepted F) (G (run F)).
Lemma any_wins F : any F -> exists j, j < m /\ wins j F.
Proof.
  move=> /existsb_exists [a [Ha R]]. have [j [Hj Ej]] := In_nth _ _ dummy Ha. exists j. split.
  - have [L _] := proj2 HG (run F) (rl _ _ _ _ _). apply/ssrnat.ltP. move: Hj L. lia.
  - rewrite /wins. apply/andP. split; [exact/ssrnat.ltP|]. by rewrite /att -/(run F) Ej.
Qed.
Lemma any_bound : #|[set g : {ffun block -> oblock} | any (as_blocks g)]| * #|block| <= m * bound * #|{ffun block -> oblock}|.
Proof.
  have H : #|[set g : {ffun block -> oblock} | any (as_blocks g)]| <= \sum_(j < m) #|[set g : {ffun block -> oblock} | wins j (as_blocks g)]|.
  { rewrite -sum1_card (eq_bigr (fun j : 'I_m => \sum_(g : {ffun block -> oblock}) (wins j (as_blocks g) : nat))).
    - rewrite exchange_big /= big_mkcond. apply: leq_sum => g _. rewrite inE. case: ifP => // /any_wins [j [Hj Wj]].
      rewrite (bigD1 (Ordinal Hj)) //= Wj. exact: leq_addr.
    - move=> j _. rewrite -sum1_card big_mkcond /=. apply: eq_bigr => g _. rewrite inE. by case: (wins _ _). }
  have H2 : (\sum_(j < m) #|[set g : {ffun block -> oblock} | wins j (as_blocks g)]|) * #|block| <= m * bound * #|{ffun block -> oblock}|.
  { rewrite big_distrl /=. have -> : m * bound * #|{ffun block -> oblock}| = \sum_(j < m) bound * #|{ffun block -> oblock}| by rewrite sum_nat_const card_ord mulnA.
    apply: leq_sum => j _. exact: wins_bound. }
  apply: leq_trans H2. by rewrite leq_mul2r H orbT.
Qed.
End Forge.
