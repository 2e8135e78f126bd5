(** From the switching lemma (P_Switch.v) and the bijection between functions (T_GcmPrivacy.v) to permutations. *)
From Coq Require Import ZArith List Lia.
From Verif Require Import Base M_Gcm S_Gcm T_Gcm T_GcmPrivacy P_GcmExt P_Switch S_GcmPrp.
From Verif Require BaseFacts.
From mathcomp Require Import all_ssreflect all_fingroup all_algebra.
Import ListNotations.
Import Order.TTheory GRing.Theory Num.Theory.
Set Implicit Arguments.
Unset Strict Implicit.
Unset Printing Implicit Defensive.

(** ** Blocks as lists of bytes *)
Lemma bytes_of_block x : is_block (bytes_of x).
Proof.
  split.
  - rewrite /bytes_of List.map_length. exact: size_tuple x.
  - apply Forall_forall => y /in_map_iff [i [<- _]]. have := ltn_ord i => /ssrnat.ltP. rewrite /byte_ok. lia.
Qed.
Lemma as_cipher_block g : block_fn (as_cipher g).
Proof. move=> x _. exact: bytes_of_block. Qed.
Lemma nth_List T (d : T) (l : list T) i : List.nth i l d = nth d l i.
Proof. elim: l i => [|a l IH] [|i] //=. Qed.
Lemma map_List T U (f : T -> U) (l : list T) : List.map f l = map f l.
Proof. by elim: l => //= a l ->. Qed.
Lemma bytes_of_K l : is_block l -> bytes_of (block_of l) = l.
Proof.
  move=> [L B]. apply: (nth_ext _ _ Z0 Z0); first by rewrite (proj1 (bytes_of_block _)) L.
  move=> n. rewrite (proj1 (bytes_of_block _)) => /ssrnat.ltP Hn.
  rewrite /bytes_of map_List nth_List (nth_map (inord 0 : 'I_256)) ?size_tuple //.
  have -> : nth (inord 0 : 'I_256) (block_of l) n = tnth (block_of l) (Ordinal Hn) by rewrite (tnth_nth (inord 0)).
  rewrite /block_of tnth_mktuple.
  have Hb : byte_ok (List.nth n l Z0) by apply: BaseFacts.bytes_nth. move: Hb. rewrite /byte_ok. set v := List.nth n l Z0 => Hb.
  have -> : nat_of_ord (inord (Z.to_nat v) : 'I_256) = Z.to_nat v by apply: inordK; apply/ssrnat.ltP; lia.
  apply: Z2Nat.id; lia.
Qed.
Lemma bytes_of_inj : injective bytes_of.
Proof.
  move=> x y H. apply: val_inj. move: H. rewrite /bytes_of !map_List => H. apply: (@inj_map _ _ (fun i : 'I_256 => Z.of_nat i)); last exact: H.
  move=> i j /Nat2Z.inj E. exact: val_inj.
Qed.
Lemma block_of_K x : block_of (bytes_of x) = x.
Proof. apply: bytes_of_inj. apply: bytes_of_K. exact: bytes_of_block. Qed.
Lemma as_cipher_ext g h l : g (block_of l) = h (block_of l) -> as_cipher g l = as_cipher h l.
Proof. by rewrite /as_cipher => ->. Qed.

Lemma In_map x (c : list (list Z)) : In x c -> block_of x \in map block_of c.
Proof. elim: c => //= a c IHc [->|Hc]; rewrite in_cons ?eqxx // (IHc Hc). exact: orbT. Qed.

(** ** The whole game as one adaptive algorithm *)
Section Game.
Variables (b : build) (l : bool) (A : attacker) (K : list reply -> (block -> block) -> tree block) (n : nat).
Hypothesis HA : admissible n A.

Fixpoint ask_all (xs : seq block) (tab : block -> block) (k : (block -> block) -> tree block) : tree block :=
  match xs with
  | [::] => k tab
  | x :: xs => Ask x (fun y => ask_all xs (fun z => if z == x then y else tab z) k)
  end.
Lemma eval_ask_all f xs : forall tab k r,
  (forall tab', (forall x, x \in xs \/ tab x = f x -> tab' x = f x) -> eval (k tab') f = r) -> eval (ask_all xs tab k) f = r.
Proof.
  elim: xs => [|x xs IH] tab k r H /=; first by apply: H => x [].
  apply: IH => tab' H'. apply: H => z Hz. apply: H'.
  case: eqP => [->|/eqP Hne]; first by right.
  case: Hz; last by right. rewrite in_cons (negPf Hne) /=. by left.
Qed.
Lemma depth_ask_all xs d : forall tab k, (forall tab', depth_le d (k tab')) -> depth_le (size xs + d) (ask_all xs tab k).
Proof. elim: xs => [|x xs IH] tab k H //= y. exact: IH. Qed.

Definition points (q : lr_query) : seq block := map block_of (J0 (q_nonce q) :: ctrs q).
(** [m] queries; then [K] goes on with the answers and the values known. *)
Fixpoint game (m : nat) (tr : list reply) (tab : block -> block) : tree block :=
  match m with
  | O => K tr tab
  | S m => ask_all (points (A tr)) tab (fun tab' => game m (tr ++ [lr_answer b l (as_cipher tab') (A tr)])%list tab')
  end.
Definition whole : tree block := ask_all [:: block_of (repeat Z0 16)] id (game n nil).

Lemma eval_game f r m : (forall tab, tab (block_of (repeat Z0 16)) = f (block_of (repeat Z0 16)) -> eval (K (lr_run b l A (as_cipher f) n) tab) f = r) ->
  forall tab, (m <= n)%nat -> tab (block_of (repeat Z0 16)) = f (block_of (repeat Z0 16)) ->
  eval (game m (lr_run b l A (as_cipher f) (n - m)) tab) f = r.
Proof.
  move=> HK. elim: m => [|m IH] tab Hm H0; first by rewrite subn0; apply: HK.
  cbn [game]. apply: eval_ask_all => tab' H'. set tr := lr_run _ _ _ _ _.
  have Lt : (length tr < n)%coq_nat by rewrite /tr run_length; apply/ssrnat.ltP; rewrite ltn_subrL (leq_ltn_trans _ Hm).
  have Z' : tab' (block_of (repeat Z0 16)) = f (block_of (repeat Z0 16)) by apply: H'; right.
  case: (HA Lt) => Hn [Hd [Hml [Hmr [Hl _]]]].
  have -> : lr_answer b l (as_cipher tab') (A tr) = lr_answer b l (as_cipher f) (A tr).
  { apply: answer_ext => //; try exact: as_cipher_block.
    - apply: as_cipher_ext. apply: H'. left. by rewrite in_cons eqxx.
    - exact: as_cipher_ext.
    - move=> j Hj. apply: as_cipher_ext. apply: H'. left. rewrite in_cons. apply/orP. right.
      apply: In_map. exact: ctrs_in. }
  have E : (n - m = S (n - S m))%nat by rewrite subnSK.
  move: (IH tab' (ltnW Hm) Z'). rewrite E. cbn [lr_run]. by [].
Qed.
Lemma eval_whole f r : (forall tab, tab (block_of (repeat Z0 16)) = f (block_of (repeat Z0 16)) -> eval (K (lr_run b l A (as_cipher f) n) tab) f = r) ->
  eval whole f = r.
Proof.
  move=> HK. apply: eval_ask_all => tab H. move: (@eval_game f r n HK tab (leqnn n)). rewrite subnn. apply. apply: H. left. by rewrite in_cons eqxx.
Qed.

(** Its number of questions. *)
Lemma used_firstn tr k : forall i, (k <= i)%nat -> blocks_used A (firstn i tr) k = blocks_used A tr k.
Proof.
  elim: k => [|k IH] i Hi //=. rewrite IH ?(ltnW Hi) // firstn_firstn. by rewrite Nat.min_l // ; apply/ssrnat.leP; apply: ltnW.
Qed.
Lemma depth_mono d e (t : tree block) : depth_le e t -> depth_le (d + e) t.
Proof. elim: d => [|k IH] // H. rewrite addSn. apply: depth_S. exact: IH. Qed.
Lemma depth_game s e m : (forall tr tab, length tr = n -> depth_le e (K tr tab)) ->
  forall tr tab, (length tr + m = n)%nat -> (forall tr', length tr' = n -> (blocks_used A tr' n <= s)%nat) ->
  depth_le (s - blocks_used A tr (length tr) + e) (game m tr tab) /\ (blocks_used A tr (length tr) <= s)%nat.
Proof.
  move=> HK. elim: m => [|m IH] tr tab E Hs.
  { rewrite addn0 in E. split; first by apply: depth_mono; apply: HK. rewrite E. exact: Hs. }
  have G : forall a, let tr' := (tr ++ [a])%list in
     (length tr' + m = n)%nat /\ blocks_used A tr' (length tr') = (blocks_used A tr (length tr) + size (points (A tr)))%nat.
  { move=> a /=. rewrite app_length Nat.add_1_r. split; first by rewrite addSnnS.
    cbn [blocks_used]. rewrite -(@used_firstn _ _ (length tr)) // firstn_app Nat.sub_diag firstn_O app_nil_r firstn_all.
    rewrite /points size_map /= -[size (ctrs _)]/(length (ctrs _)) ctrs_length. by []. }
  have B : (blocks_used A tr (length tr) + size (points (A tr)) <= s)%nat.
  { case: (G Panic) => E1 <-. by case: (IH _ tab E1 Hs). }
  split; last by apply: leq_trans B; apply: leq_addr.
  cbn [game]. have -> : (s - blocks_used A tr (length tr) = size (points (A tr)) + (s - (blocks_used A tr (length tr) + size (points (A tr)))))%nat
    by rewrite subnDA subnKC // leq_subRL ?(leq_trans _ B) // leq_addr.
  rewrite -addnA. apply: depth_ask_all => tab'. set a := lr_answer _ _ _ _. case: (G a) => E1 E2. rewrite -E2. by case: (IH _ tab' E1 Hs).
Qed.
Lemma depth_whole s e : (forall tr tab, length tr = n -> depth_le e (K tr tab)) ->
  (forall tr', length tr' = n -> (blocks_used A tr' n <= s)%nat) -> depth_le (s + e) whole.
Proof.
  move=> HK Hs. case: (@depth_game s e n HK nil id) => //= H1 H2. rewrite -(subnKC H2) -addnA. apply: (@depth_ask_all [:: _]) => tab.
  by case: (@depth_game s e n HK nil tab).
Qed.
End Game.

(** ** Functions: the two sides are equally likely *)
Section Functions.
Variables (b : build) (A : attacker) (D : list reply -> bool) (n : nat).
Hypothesis HA : admissible n A.
Definition move (l : bool) (g : {ffun block -> block}) : {ffun block -> block} :=
  [ffun x => block_of (shift (queries b l A (as_cipher g) n) (as_cipher g) (bytes_of x))].
Lemma move_cipher l g x : is_block x -> as_cipher (move l g) x = shift (queries b l A (as_cipher g) n) (as_cipher g) x.
Proof.
  move=> Hx. rewrite {1}/as_cipher /move ffunE !bytes_of_K //. apply: shift_block => //. exact: as_cipher_block.
Qed.
Lemma move_run l g : lr_run b (~~ l) A (as_cipher (move l g)) n = lr_run b l A (as_cipher g) n.
Proof.
  rewrite -(@shifted_run b l A (as_cipher g) n HA (@as_cipher_block g) n) //.
  apply: (@run_ext _ _ _ _ _ n) => //; [|exact: as_cipher_block|exact: move_cipher]. apply: shift_block => //. exact: as_cipher_block.
Qed.
Lemma move_inj l : injective (move l).
Proof.
  move=> g h E. have R : lr_run b l A (as_cipher g) n = lr_run b l A (as_cipher h) n by rewrite -(move_run l g) -(move_run l h) E.
  have Q := @queries_ext b b l l A _ _ n R.
  apply/ffunP => x. apply: bytes_of_inj.
  have K : forall k, as_cipher k (bytes_of x) = bytes_of (k x) by move=> k; rewrite /as_cipher block_of_K.
  have S : shift (queries b l A (as_cipher g) n) (as_cipher g) (bytes_of x) = shift (queries b l A (as_cipher g) n) (as_cipher h) (bytes_of x).
  { rewrite {2}Q -!move_cipher ?E //; exact: bytes_of_block. }
  rewrite -(K g) -(K h).
  rewrite -(@shift_twice (queries b l A (as_cipher g) n) (as_cipher g)); last by apply: as_cipher_block; apply: bytes_of_block.
  rewrite -(@shift_twice (queries b l A (as_cipher g) n) (as_cipher h)); last by apply: as_cipher_block; apply: bytes_of_block.
  rewrite /shift in S *. apply: List.map_ext => m. 
  congr (Z.lxor _ _). exact: (f_equal (fun y => List.nth m y Z0) S).
Qed.
Lemma functions_equal : #|[set g : {ffun block -> block} | D (lr_run b true A (as_cipher g) n)]| =
                        #|[set g : {ffun block -> block} | D (lr_run b false A (as_cipher g) n)]|.
Proof.
  have le : forall l, (#|[set g : {ffun block -> block} | D (lr_run b l A (as_cipher g) n)]| <=
                      #|[set g : {ffun block -> block} | D (lr_run b (~~ l) A (as_cipher g) n)]|)%nat.
  { move=> l. rewrite -(card_imset _ (@move_inj l)). apply: subset_leq_card. apply/subsetP => h /imsetP [g]. rewrite !inE => H ->.
    by rewrite move_run. }
  apply/eqP. rewrite eqn_leq (le true). exact: (le false).
Qed.
End Functions.

Lemma sum_double s : ((\sum_(j < s) j).*2 = s * (s - 1))%N.
Proof.
  elim: s => [|s IH]; first by rewrite big_ord0.
  rewrite big_ord_recr /= doubleD IH -muln2 subn1 /= -mulnDr. case: s {IH} => [|s]; first by [].
  by rewrite subn1 /= addn2 mulnC.
Qed.
Lemma card_block : (#|block|%:R = 2%:R ^+ 128 :> rat)%R.
Proof. rewrite card_tuple card_ord natrX. have -> : (256%:R = 2%:R ^+ 8 :> rat)%R by rewrite -natrX. by rewrite -exprM. Qed.

Lemma prp_privacy b A D n s : admissible n A -> (forall tr, length tr = n -> (blocks_used A tr n <= s)%nat) ->
  (`| pr_yes b true A D n - pr_yes b false A D n | <= (s * (s - 1))%N%:R / 2%:R ^+ 128)%R.
Proof.
  move=> HA Hs.
  have H l : (`| pr_yes b l A D n - #|[set g : {ffun block -> block} | D (lr_run b l A (as_cipher g) n)]|%:R / #|{ffun block -> block}|%:R |
     <= (\sum_(j < s) j)%N%:R / 2%:R ^+ 128 :> rat)%R.
  { have W : depth_le s (whole b l A (fun tr _ => Leaf (D tr)) n) by rewrite -[s]addn0; apply: depth_whole.
    have := switching W. rewrite card_block /pr_yes.
    have -> : [set g : {perm block} | eval (whole b l A (fun tr _ => Leaf (D tr)) n) g] = [set g : {perm block} | D (lr_run b l A (as_cipher g) n)]
      by apply/setP => g; rewrite !inE; apply: eval_whole.
    have -> : [set g : {ffun block -> block} | eval (whole b l A (fun tr _ => Leaf (D tr)) n) g] = [set g : {ffun block -> block} | D (lr_run b l A (as_cipher g) n)]
      by apply/setP => g; rewrite !inE; apply: eval_whole.
    by []. }
  have := ler_add (H true) (H false). rewrite (functions_equal b D HA). set F := (_ / #|{ffun block -> block}|%:R)%R. move=> H2.
  have -> : ((s * (s - 1))%N%:R = (\sum_(j < s) j)%N%:R + (\sum_(j < s) j)%N%:R :> rat)%R by rewrite -natrD addnn sum_double.
  rewrite mulrDl. apply: le_trans H2. rewrite (_ : pr_yes b true A D n - _ = (pr_yes b true A D n - F) - (pr_yes b false A D n - F))%R.
  - exact: ler_norm_sub.
  - by rewrite opprB addrA subrK.
Qed.
