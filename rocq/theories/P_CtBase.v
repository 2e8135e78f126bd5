(** Reasoning about the leakage model: results ([sim]) and traces ([rel], [wrel]). *)
From Verif Require Import Base M_CtBase.

(** * Results *)

(** The result of [m], converted by [f], is [r]. *)
Definition sim {A B} (f : A -> B) (m : M A) (r : res B) : Prop := rmap f (snd m) = r.
Notation simi := (sim (fun x => x)).

Lemma simi_res {A} (m : M A) (r : res A) : simi m r -> result m = r.
Proof. unfold sim, result, rmap. destruct (snd m); auto. Qed.
Lemma sim_bind {A B C D} (f : A -> B) (g : C -> D) (m : M A) r (k : A -> M C) (k' : B -> res D) :
  sim f m r -> (forall a, sim g (k a) (k' (f a))) -> sim g (bindM m k) (bind r k').
Proof.
  unfold sim, bindM, bind. intros H H'. destruct m as [t [a|]]; cbn in *; subst r; cbn; auto.
Qed.
Lemma sim_ret {A B} (f : A -> B) a b : f a = b -> sim f (ret a) (Ok b).
Proof. intros <-. reflexivity. Qed.
Lemma sim_fail {A B} (f : A -> B) : sim f (@fail A) Panic.
Proof. reflexivity. Qed.
Lemma sim_tick {A B} (f : A -> B) e k r : sim f k r -> sim f (let* _ := tick e in k) r.
Proof. unfold sim, bindM, tick. cbn. destruct k as [t [a|]]; cbn; auto. Qed.
Lemma sim_branch {A B} (f : A -> B) c x y r r' :
  sim f x r -> sim f y r' -> sim f (branch c x y) (if c then r else r').
Proof. intros. unfold branch. apply sim_tick. destruct c; auto. Qed.
(** Bind against a result that does not bind. *)
Lemma sim_bind_l {A B} (g : A -> B) {C} (m : M C) (k : C -> M A) r :
  sim g (bindM m k) r <-> (rmap g (match snd m with Ok a => snd (k a) | Panic => Panic end) = r).
Proof. unfold sim, bindM. destruct m as [t [a|]]; cbn; tauto. Qed.

Lemma sim_assert c : simi (assertM c) (assertb c).
Proof. destruct c; reflexivity. Qed.
Lemma sim_p_uchk b w v : simi (p_uchk b w v) (uchk b w v).
Proof.
  unfold p_uchk, uchk. destruct ((0 <=? v) && (v <? 2 ^ w)) eqn:E; destruct b; try reflexivity.
  cbn. apply andb_prop in E. destruct E as [E1 E2]. apply Z.leb_le in E1. apply Z.ltb_lt in E2.
  unfold sim, ret, rmap, snd. now rewrite Z.mod_small by (split; assumption).
Qed.
Lemma sim_z_uchk b w v : simi (z_uchk b w v) (uchk b w v).
Proof. exact (sim_p_uchk b w v). Qed.
Lemma swrap_small w v : 0 < w -> - 2 ^ (w - 1) <= v < 2 ^ (w - 1) -> swrap w v = v.
Proof.
  intros Hw Hv. unfold swrap.
  assert (E : 2 ^ w = 2 * 2 ^ (w - 1)).
  { replace w with (Z.succ (w - 1)) at 1 by lia. apply Z.pow_succ_r. lia. }
  rewrite Z.mod_small; lia.
Qed.
Lemma sim_z_schk b w v : 0 < w -> simi (z_schk b w v) (schk b w v).
Proof.
  intros Hw. unfold z_schk, schk.
  destruct ((- 2 ^ (w - 1) <=? v) && (v <? 2 ^ (w - 1))) eqn:E; destruct b; try reflexivity.
  apply andb_prop in E. destruct E as [E1 E2]. apply Z.leb_le in E1. apply Z.ltb_lt in E2.
  unfold sim, ret, rmap, snd. now rewrite swrap_small by lia.
Qed.
Lemma sim_write_slice {A} (dst : list A) off src : simi (c_write_slice dst off src) (write_slice dst off src).
Proof. unfold c_write_slice, write_slice. do 2 apply sim_tick. apply sim_branch; reflexivity. Qed.
Lemma sim_slice {A} (l : list A) a b : simi (c_slice l a b) (slice l a b).
Proof. unfold c_slice, slice. do 2 apply sim_tick. apply sim_branch; reflexivity. Qed.

(** * Traces *)

(** The relation on byte strings: only the length is public. *)
Definition leq {A B} (l : list A) (m : list B) : Prop := length l = length m.
Definition anyr {A B} (a : A) (b : B) : Prop := True.

(** Two runs leave the same trace, and both panic or both return related results. *)
Definition rres {A B} (R : A -> B -> Prop) (r1 : res A) (r2 : res B) : Prop :=
  match r1, r2 with Ok a1, Ok a2 => R a1 a2 | Panic, Panic => True | _, _ => False end.
Definition rel {A B} (R : A -> B -> Prop) (m1 : M A) (m2 : M B) : Prop := fst m1 = fst m2 /\ rres R (snd m1) (snd m2).

Lemma rel_bind {A B C D} (R : A -> B -> Prop) (S : C -> D -> Prop) m1 m2 k1 k2 :
  rel R m1 m2 -> (forall a1 a2, R a1 a2 -> rel S (k1 a1) (k2 a2)) -> rel S (bindM m1 k1) (bindM m2 k2).
Proof.
  intros [H1 HR] H2. destruct m1 as [t1 [a1|]], m2 as [t2 [a2|]]; cbn in H1, HR; try contradiction; subst t2.
  - destruct (H2 a1 a2 HR) as [Hk HS]. unfold bindM. cbn. split; cbn; [now rewrite Hk|exact HS].
  - unfold bindM. cbn. split; cbn; auto.
Qed.
Lemma rel_ret {A B} (R : A -> B -> Prop) a b : R a b -> rel R (ret a) (ret b).
Proof. intros H. split; [reflexivity|exact H]. Qed.
Lemma rel_fail {A B} (R : A -> B -> Prop) : rel R fail fail.
Proof. split; [reflexivity|exact I]. Qed.
Lemma rel_tick e1 e2 : e1 = e2 -> rel eq (tick e1) (tick e2).
Proof. intros ->. split; reflexivity. Qed.
Lemma rel_branch {A B} (R : A -> B -> Prop) c1 c2 x1 x2 y1 y2 :
  c1 = c2 -> rel R x1 x2 -> rel R y1 y2 -> rel R (branch c1 x1 y1) (branch c2 x2 y2).
Proof.
  intros -> Hx Hy. unfold branch. eapply rel_bind; [apply rel_tick; reflexivity|].
  intros _ _ _. destruct c2; auto.
Qed.
Lemma rel_assert c1 c2 : c1 = c2 -> rel eq (assertM c1) (assertM c2).
Proof.
  intros ->. unfold assertM. apply rel_branch; [reflexivity|apply rel_ret; reflexivity|apply rel_fail].
Qed.
Lemma rel_p_uchk b w v1 v2 : v1 = v2 -> rel eq (p_uchk b w v1) (p_uchk b w v2).
Proof. intros <-. split; [reflexivity|]. destruct (snd (p_uchk b w v1)); cbn; auto. Qed.
Lemma rel_weaken {A B} (R S : A -> B -> Prop) m1 m2 :
  rel R m1 m2 -> (forall a b, R a b -> S a b) -> rel S m1 m2.
Proof. intros [H HR] HS. split; [exact H|]. destruct (snd m1), (snd m2); cbn in *; auto. Qed.
Lemma rel_write_slice {A B} (d1 : list A) (d2 : list B) o1 o2 s1 s2 :
  leq d1 d2 -> o1 = o2 -> leq s1 s2 -> rel leq (c_write_slice d1 o1 s1) (c_write_slice d2 o2 s2).
Proof.
  unfold leq. intros Hd -> Hs. unfold c_write_slice. rewrite Hs, Hd.
  eapply rel_bind; [apply rel_tick; reflexivity|intros _ _ _].
  eapply rel_bind; [apply rel_tick; reflexivity|intros _ _ _].
  apply rel_branch; [reflexivity| |apply rel_fail].
  apply rel_ret. unfold leq. rewrite !app_length, !skipn_length, !firstn_length. congruence.
Qed.
Lemma rel_slice {A B} (l1 : list A) (l2 : list B) a1 a2 b1 b2 :
  leq l1 l2 -> a1 = a2 -> b1 = b2 -> rel leq (c_slice l1 a1 b1) (c_slice l2 a2 b2).
Proof.
  unfold leq. intros Hl -> ->. unfold c_slice. rewrite Hl.
  eapply rel_bind; [apply rel_tick; reflexivity|intros _ _ _].
  eapply rel_bind; [apply rel_tick; reflexivity|intros _ _ _].
  apply rel_branch; [reflexivity| |apply rel_fail].
  apply rel_ret. unfold leq. rewrite !firstn_length, !skipn_length. congruence.
Qed.
(** The conclusions drawn from [rel]. *)
Lemma rel_leak {A B} (R : A -> B -> Prop) m1 m2 : rel R m1 m2 -> leak m1 = leak m2 /\ (result m1 = Panic <-> result m2 = Panic).
Proof.
  intros [H HR]. split; [exact H|]. unfold result. destruct (snd m1), (snd m2); cbn in HR; try contradiction; split; congruence.
Qed.

(** ** Traces of runs that return.  Overflow checks on secret words may fail; where they are shown not to, this gives [rel]. *)



(** Two runs that do not panic leave the same trace, and related results. *)
Definition wrel {A B} (R : A -> B -> Prop) (m1 : M A) (m2 : M B) : Prop :=
  forall a1 a2, snd m1 = Ok a1 -> snd m2 = Ok a2 -> fst m1 = fst m2 /\ R a1 a2.

Lemma wrel_bind {A B C D} (R : A -> B -> Prop) (S : C -> D -> Prop) m1 m2 k1 k2 :
  wrel R m1 m2 -> (forall a1 a2, R a1 a2 -> wrel S (k1 a1) (k2 a2)) -> wrel S (bindM m1 k1) (bindM m2 k2).
Proof.
  intros H1 H2 c1 c2. unfold bindM.
  destruct m1 as [t1 [a1|]]; cbn; intros E1; [|discriminate].
  destruct m2 as [t2 [a2|]]; cbn; intros E2; [|discriminate].
  destruct (H1 a1 a2 eq_refl eq_refl) as [Ht HR]. cbn in Ht. subst t2.
  destruct (H2 a1 a2 HR c1 c2 E1 E2) as [Hk HS]. rewrite Hk. auto.
Qed.
Lemma wrel_ret {A B} (R : A -> B -> Prop) a b : R a b -> wrel R (ret a) (ret b).
Proof. intros H a1 a2 E1 E2. injection E1 as <-. injection E2 as <-. auto. Qed.
Lemma wrel_fail_l {A B} (R : A -> B -> Prop) m : wrel R fail m.
Proof. intros a1 a2 E. discriminate. Qed.
Lemma wrel_tick e1 e2 : e1 = e2 -> wrel eq (tick e1) (tick e2).
Proof. intros -> a1 a2 E1 E2. cbn in *. split; congruence. Qed.
Lemma wrel_branch {A B} (R : A -> B -> Prop) c1 c2 x1 x2 y1 y2 :
  c1 = c2 -> wrel R x1 x2 -> wrel R y1 y2 -> wrel R (branch c1 x1 y1) (branch c2 x2 y2).
Proof.
  intros -> Hx Hy. unfold branch. eapply wrel_bind; [apply wrel_tick; reflexivity|].
  intros _ _ _. destruct c2; auto.
Qed.
(** The outcome of the condition may be used on both sides. *)
Lemma wrel_branch' {A B} (R : A -> B -> Prop) c1 c2 x1 x2 y1 y2 :
  c1 = c2 -> (c1 = true -> wrel R x1 x2) -> (c1 = false -> wrel R y1 y2) ->
  wrel R (branch c1 x1 y1) (branch c2 x2 y2).
Proof.
  intros -> Hx Hy. unfold branch. eapply wrel_bind; [apply wrel_tick; reflexivity|].
  intros _ _ _. destruct c2; auto.
Qed.
Lemma wrel_assert c1 c2 : c1 = c2 -> wrel eq (assertM c1) (assertM c2).
Proof.
  intros ->. unfold assertM. apply wrel_branch; [reflexivity|apply wrel_ret; reflexivity|apply wrel_fail_l].
Qed.
(** Two asserts whose outcome may differ do not differ on runs that go on. *)
Lemma wrel_assert_any c1 c2 : wrel eq (assertM c1) (assertM c2).
Proof. intros [] [] E1 E2. destruct c1, c2; cbn in *; try discriminate. auto. Qed.
Lemma wrel_p_uchk b w v1 v2 : v1 = v2 -> wrel eq (p_uchk b w v1) (p_uchk b w v2).
Proof.
  intros <- a1 a2 E1 E2. unfold p_uchk in *. rewrite E1 in E2. split; congruence.
Qed.
Lemma wrel_z_uchk b w v1 v2 : wrel anyr (z_uchk b w v1) (z_uchk b w v2).
Proof.
  intros a1 a2. unfold z_uchk. destruct b; cbn; [|intros; split; [reflexivity|exact I]].
  unfold branch, bindM. cbn.
  destruct ((0 <=? v1) && (v1 <? 2 ^ w)); [|discriminate].
  destruct ((0 <=? v2) && (v2 <? 2 ^ w)); [|discriminate].
  intros. split; [reflexivity|exact I].
Qed.
Lemma wrel_z_schk b w v1 v2 : wrel anyr (z_schk b w v1) (z_schk b w v2).
Proof.
  intros a1 a2. unfold z_schk. destruct b; cbn; [|intros; split; [reflexivity|exact I]].
  unfold branch, bindM. cbn.
  destruct ((- 2 ^ (w - 1) <=? v1) && (v1 <? 2 ^ (w - 1))); [|discriminate].
  destruct ((- 2 ^ (w - 1) <=? v2) && (v2 <? 2 ^ (w - 1))); [|discriminate].
  intros. split; [reflexivity|exact I].
Qed.
Lemma wrel_weaken {A B} (R S : A -> B -> Prop) m1 m2 :
  wrel R m1 m2 -> (forall a b, R a b -> S a b) -> wrel S m1 m2.
Proof. intros H HS a1 a2 E1 E2. destruct (H a1 a2 E1 E2). auto. Qed.

Lemma wrel_write_slice {A B} (d1 : list A) (d2 : list B) o1 o2 s1 s2 :
  leq d1 d2 -> o1 = o2 -> leq s1 s2 -> wrel leq (c_write_slice d1 o1 s1) (c_write_slice d2 o2 s2).
Proof.
  unfold leq. intros Hd -> Hs. unfold c_write_slice. rewrite Hs, Hd.
  eapply wrel_bind; [apply wrel_tick; reflexivity|intros _ _ _].
  eapply wrel_bind; [apply wrel_tick; reflexivity|intros _ _ _].
  apply wrel_branch; [reflexivity| |apply wrel_fail_l].
  apply wrel_ret. unfold leq. rewrite !app_length, !skipn_length, !firstn_length. congruence.
Qed.
Lemma wrel_slice {A B} (l1 : list A) (l2 : list B) a1 a2 b1 b2 :
  leq l1 l2 -> a1 = a2 -> b1 = b2 -> wrel leq (c_slice l1 a1 b1) (c_slice l2 a2 b2).
Proof.
  unfold leq. intros Hl -> ->. unfold c_slice. rewrite Hl.
  eapply wrel_bind; [apply wrel_tick; reflexivity|intros _ _ _].
  eapply wrel_bind; [apply wrel_tick; reflexivity|intros _ _ _].
  apply wrel_branch; [reflexivity| |apply wrel_fail_l].
  apply wrel_ret. unfold leq. rewrite !firstn_length, !skipn_length. congruence.
Qed.
Lemma wrel_idx {A B} (l1 : list A) (l2 : list B) i1 i2 : i1 = i2 -> wrel anyr (c_idx l1 i1) (c_idx l2 i2).
Proof.
  intros <-. unfold c_idx. eapply wrel_bind; [apply wrel_tick; reflexivity|intros _ _ _].
  destruct (nth_error l1 i1); [|apply wrel_fail_l].
  destruct (nth_error l2 i1).
  - apply wrel_ret. exact I.
  - intros a1 a2 E1 E2. discriminate.
Qed.
Lemma wrel_from {A B} (l1 : list A) (l2 : list B) n1 n2 :
  leq l1 l2 -> n1 = n2 -> wrel leq (c_from l1 n1) (c_from l2 n2).
Proof.
  unfold leq. intros Hl ->. unfold c_from. rewrite Hl.
  eapply wrel_bind; [apply wrel_tick; reflexivity|intros _ _ _].
  apply wrel_branch; [reflexivity| |apply wrel_fail_l].
  apply wrel_ret. unfold leq. rewrite !skipn_length. congruence.
Qed.

(** The conclusion drawn from [rel]. *)
Lemma wrel_leak {A B} (R : A -> B -> Prop) m1 m2 a1 a2 :
  wrel R m1 m2 -> result m1 = Ok a1 -> result m2 = Ok a2 -> leak m1 = leak m2.
Proof. intros H E1 E2. apply (H a1 a2 E1 E2). Qed.

Lemma rel_wrel {A B} (R : A -> B -> Prop) m1 m2 : rel R m1 m2 -> wrel R m1 m2.
Proof. intros [H HR] a1 a2 E1 E2. rewrite E1, E2 in HR. auto. Qed.
Lemma wrel_rel {A B} (R : A -> B -> Prop) m1 m2 a1 a2 : wrel R m1 m2 -> snd m1 = Ok a1 -> snd m2 = Ok a2 -> rel R m1 m2.
Proof. intros H E1 E2. destruct (H a1 a2 E1 E2) as [Ht HR]. split; [exact Ht|]. now rewrite E1, E2. Qed.

(** * Lists of the same shape *)

Lemma chunks_aux_leq {A B} n : forall f (l1 : list A) (l2 : list B),
  leq l1 l2 -> Forall2 leq (chunks_aux f n l1) (chunks_aux f n l2).
Proof.
  induction f as [|f IH]; intros l1 l2 H; cbn; [constructor|].
  destruct l1 as [|x l1], l2 as [|y l2]; try discriminate H; [constructor|].
  constructor.
  - unfold leq in *. rewrite !firstn_length. now rewrite H.
  - apply IH. unfold leq in *. rewrite !skipn_length. now rewrite H.
Qed.
Lemma chunks_leq {A B} n (l1 : list A) (l2 : list B) :
  leq l1 l2 -> Forall2 leq (chunks n l1) (chunks n l2).
Proof. intros H. unfold chunks. rewrite H. now apply chunks_aux_leq. Qed.
Lemma concat_leq {A B} (l1 : list (list A)) (l2 : list (list B)) :
  Forall2 leq l1 l2 -> leq (concat l1) (concat l2).
Proof.
  unfold leq. induction 1 as [|x y l1 l2 H _ IH]; cbn; [reflexivity|].
  rewrite !app_length. congruence.
Qed.
Lemma zipwith_length_min {A B C} (f : A -> B -> C) : forall l m,
  length (zipwith f l m) = Nat.min (length l) (length m).
Proof. induction l as [|x l IH]; intros [|y m]; cbn; auto. Qed.
Lemma upd_length {A} (v : A) : forall l i, length (upd l i v) = length l.
Proof. induction l as [|x l IH]; intros [|i]; cbn; auto. Qed.
Lemma le_encode_len n : forall x, length (le_encode n x) = n.
Proof. induction n as [|n IH]; intros x; cbn; auto. Qed.
Lemma be_encode_len n x : length (be_encode n x) = n.
Proof. unfold be_encode. rewrite rev_length. apply le_encode_len. Qed.
Lemma leq_trans_eq {A B} (l : list A) (m : list B) : leq l m -> length m = length l.
Proof. auto. Qed.
