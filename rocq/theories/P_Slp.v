(** Two verified analyses of straight-line programs: intervals (no overflow, so
    every build computes the ideal integer result) and weighted sums modulo [m]
    (weakest precondition of a polynomial congruence). *)
From Verif Require Import BaseFacts M_Slp.

(** ** Ideal semantics *)
Fixpoint ieval (s : env) (e : expr) : Z :=
  match e with
  | V x => lookup x s
  | C n => n
  | Add _ a b => ieval s a + ieval s b
  | Sub _ a b => ieval s a - ieval s b
  | Mul _ a b => ieval s a * ieval s b
  | Shr a k => Z.shiftr (ieval s a) k
  | Shl _ a k => ieval s a * 2 ^ k
  | As _ a => ieval s a
  end.
Fixpoint iexec (p : list stmt) (s : env) : env :=
  match p with
  | [] => s
  | Let x e :: p' => iexec p' (PositiveMap.add x (ieval s e) s)
  end.
Definition irun (p : prog) (vs : list Z) : list Z :=
  map (ieval (iexec (body p) (bind_args (params p) vs))) (outs p).

Lemma lookup_same x v s : lookup x (PositiveMap.add x v s) = v.
Proof. unfold lookup. now rewrite PositiveMap.gss. Qed.
Lemma lookup_other x y v s : x <> y -> lookup x (PositiveMap.add y v s) = lookup x s.
Proof. intros. unfold lookup. now rewrite PositiveMap.gso. Qed.

(** ** Intervals *)
Definition ivl := (Z * Z)%type.
Definition inr (i : ivl) (v : Z) : Prop := fst i <= v <= snd i.
Definition chk (w : Z) (i : ivl) : option ivl :=
  if (- 2 ^ (w - 1) <=? fst i) && (snd i <? 2 ^ (w - 1)) && (1 <=? w) then Some i else None.

(** [fact c h r k]: the value of [c] is [(h + r) >> k]. *)
Record fact := { fc : positive; fh : positive; fr : Z; fk : Z }.
Definition holds (s : env) (f : fact) : Prop :=
  lookup (fc f) s = (lookup (fh f) s + fr f) / 2 ^ fk f /\ 0 <= fk f.

Definition find_fact (fs : list fact) (c h : positive) (k : Z) : option fact :=
  find (fun f => Pos.eqb (fc f) c && Pos.eqb (fh f) h && (fk f =? k)) fs.

(** The refined interval of [h - (c << k)]. *)
Definition residue (fs : list fact) (a b : expr) : option ivl :=
  match a, b with
  | V h, Shl _ (V c) k =>
      match find_fact fs c h k with
      | Some f => Some (- fr f, 2 ^ k - 1 - fr f)
      | None => None
      end
  | _, _ => None
  end.

Definition imul (i j : ivl) : ivl :=
  let a := fst i * fst j in let b := fst i * snd j in
  let c := snd i * fst j in let d := snd i * snd j in
  (Z.min (Z.min a b) (Z.min c d), Z.max (Z.max a b) (Z.max c d)).

Definition obind {A B} (o : option A) (k : A -> option B) : option B :=
  match o with Some a => k a | None => None end.

Fixpoint aeval (rs : PositiveMap.t ivl) (fs : list fact) (e : expr) : option ivl :=
  match e with
  | V x => PositiveMap.find x rs
  | C n => Some (n, n)
  | Add w a b => obind (aeval rs fs a) (fun i => obind (aeval rs fs b) (fun j =>
                   chk w (fst i + fst j, snd i + snd j)))
  | Sub w a b => obind (aeval rs fs a) (fun i => obind (aeval rs fs b) (fun j =>
                   match residue fs a b with
                   | Some k => chk w k
                   | None => chk w (fst i - snd j, snd i - fst j)
                   end))
  | Mul w a b => obind (aeval rs fs a) (fun i => obind (aeval rs fs b) (fun j => chk w (imul i j)))
  | Shr a k => obind (aeval rs fs a) (fun i =>
                 if 0 <=? k then Some (Z.shiftr (fst i) k, Z.shiftr (snd i) k) else None)
  | Shl w a k => obind (aeval rs fs a) (fun i =>
                 if 0 <=? k then chk w (fst i * 2 ^ k, snd i * 2 ^ k) else None)
  | As w a => obind (aeval rs fs a) (chk w)
  end.

Definition env_ok (rs : PositiveMap.t ivl) (s : env) : Prop :=
  forall x i, PositiveMap.find x rs = Some i -> inr i (lookup x s).

Lemma swrap_id w v : 1 <= w -> - 2 ^ (w - 1) <= v < 2 ^ (w - 1) -> swrap w v = v.
Proof.
  intros Hw H. unfold swrap.
  assert (E : 2 ^ w = 2 * 2 ^ (w - 1)).
  { replace w with ((w - 1) + 1) at 1 by lia. rewrite Z.pow_add_r by lia. lia. }
  rewrite Z.mod_small by lia. lia.
Qed.

Lemma chk_spec w i j v : chk w i = Some j -> inr i v ->
  j = i /\ 1 <= w /\ - 2 ^ (w - 1) <= v < 2 ^ (w - 1).
Proof.
  unfold chk, inr. destruct (Z.leb_spec (- 2 ^ (w - 1)) (fst i)), (Z.ltb_spec (snd i) (2 ^ (w - 1))),
    (Z.leb_spec 1 w); cbn [andb]; try discriminate.
  injection 1 as <-. intros. repeat split; lia.
Qed.

Lemma imul_spec i j v w : inr i v -> inr j w -> inr (imul i j) (v * w).
Proof.
  destruct i as [a b], j as [c d]; unfold inr, imul; cbn [fst snd]. intros Hv Hw.
  assert (A : Z.min (a * w) (b * w) <= v * w <= Z.max (a * w) (b * w)).
  { destruct (Z.le_gt_cases 0 w); split; nia. }
  assert (B : forall x, Z.min (x * c) (x * d) <= x * w <= Z.max (x * c) (x * d)).
  { intros x. destruct (Z.le_gt_cases 0 x); split; nia. }
  pose proof (B a). pose proof (B b). lia.
Qed.

Lemma shiftr_mono x y k : 0 <= k -> x <= y -> Z.shiftr x k <= Z.shiftr y k.
Proof.
  intros Hk H. rewrite !Z.shiftr_div_pow2 by lia.
  apply Z.div_le_mono; [|lia]. apply Z.pow_pos_nonneg; lia.
Qed.

Lemma find_fact_spec fs c h k f s : Forall (holds s) fs -> find_fact fs c h k = Some f ->
  lookup c s = (lookup h s + fr f) / 2 ^ k /\ 0 <= k.
Proof.
  intros HF H. unfold find_fact in H. apply find_some in H as [Hin H].
  rewrite !andb_true_iff, !Pos.eqb_eq, Z.eqb_eq in H. destruct H as [[<- <-] <-].
  rewrite Forall_forall in HF. exact (HF f Hin).
Qed.

Lemma residue_spec fs a b s i : Forall (holds s) fs -> residue fs a b = Some i ->
  inr i (ieval s a - ieval s b).
Proof.
  unfold residue. intros HF H.
  destruct a as [h| | | | | | |]; try discriminate.
  destruct b as [| | | | | |w b' k|]; try discriminate.
  destruct b' as [c| | | | | | |]; try discriminate.
  destruct (find_fact fs c h k) as [f|] eqn:E; [|discriminate].
  injection H as <-. destruct (find_fact_spec _ _ _ _ _ _ HF E) as [Hc Hk].
  cbn [ieval]. rewrite Hc. unfold inr; cbn [fst snd].
  assert (P : 0 < 2 ^ k) by (apply Z.pow_pos_nonneg; lia).
  pose proof (Z.div_mod (lookup h s + fr f) (2 ^ k)).
  pose proof (Z.mod_pos_bound (lookup h s + fr f) (2 ^ k) P). nia.
Qed.

Lemma aeval_sound b rs fs s e : env_ok rs s -> Forall (holds s) fs ->
  forall i, aeval rs fs e = Some i -> eval b s e = Ok (ieval s e) /\ inr i (ieval s e).
Proof.
  intros HE HF. induction e as [x|n|w a IHa c IHc|w a IHa c IHc|w a IHa c IHc|a IHa k|w a IHa k|w a IHa];
    cbn [aeval eval ieval]; intros i H.
  - split; [reflexivity|]. now apply HE.
  - injection H as <-. split; [reflexivity|]. unfold inr; cbn; lia.
  - destruct (aeval rs fs a) as [i1|]; [|discriminate]. destruct (aeval rs fs c) as [i2|]; [|discriminate].
    cbn [obind] in H. destruct (IHa _ eq_refl) as [-> R1], (IHc _ eq_refl) as [-> R2]. rewrite !bind_ok.
    assert (R : inr (fst i1 + fst i2, snd i1 + snd i2) (ieval s a + ieval s c))
      by (unfold inr in *; cbn [fst snd]; lia).
    destruct (chk_spec _ _ _ _ H R) as [-> [? ?]]. rewrite schk_ok by lia. auto.
  - destruct (aeval rs fs a) as [i1|]; [|discriminate]. destruct (aeval rs fs c) as [i2|]; [|discriminate].
    cbn [obind] in H. destruct (IHa _ eq_refl) as [-> R1], (IHc _ eq_refl) as [-> R2]. rewrite !bind_ok.
    destruct (residue fs a c) as [j|] eqn:ER.
    + pose proof (residue_spec _ _ _ _ _ HF ER) as R.
      destruct (chk_spec _ _ _ _ H R) as [-> [? ?]]. rewrite schk_ok by lia. auto.
    + assert (R : inr (fst i1 - snd i2, snd i1 - fst i2) (ieval s a - ieval s c))
        by (unfold inr in *; cbn [fst snd]; lia).
      destruct (chk_spec _ _ _ _ H R) as [-> [? ?]]. rewrite schk_ok by lia. auto.
  - destruct (aeval rs fs a) as [i1|]; [|discriminate]. destruct (aeval rs fs c) as [i2|]; [|discriminate].
    cbn [obind] in H. destruct (IHa _ eq_refl) as [-> R1], (IHc _ eq_refl) as [-> R2]. rewrite !bind_ok.
    pose proof (imul_spec _ _ _ _ R1 R2) as R.
    destruct (chk_spec _ _ _ _ H R) as [-> [? ?]]. rewrite schk_ok by lia. auto.
  - destruct (aeval rs fs a) as [i1|]; [|discriminate]. cbn [obind] in H.
    destruct (IHa _ eq_refl) as [-> R1]. rewrite bind_ok.
    destruct (Z.leb_spec 0 k); [|discriminate]. injection H as <-. split; [reflexivity|].
    unfold inr in *; cbn [fst snd]. split; apply shiftr_mono; lia.
  - destruct (aeval rs fs a) as [i1|]; [|discriminate]. cbn [obind] in H.
    destruct (IHa _ eq_refl) as [-> R1]. rewrite bind_ok.
    destruct (Z.leb_spec 0 k); [|discriminate].
    assert (P : 0 < 2 ^ k) by (apply Z.pow_pos_nonneg; lia).
    assert (R : inr (fst i1 * 2 ^ k, snd i1 * 2 ^ k) (ieval s a * 2 ^ k))
      by (unfold inr in *; cbn [fst snd]; nia).
    destruct (chk_spec _ _ _ _ H R) as [-> [? ?]]. rewrite Z.shiftl_mul_pow2 by lia.
    rewrite swrap_id by lia. auto.
  - destruct (aeval rs fs a) as [i1|]; [|discriminate]. cbn [obind] in H.
    destruct (IHa _ eq_refl) as [-> R1]. rewrite bind_ok.
    destruct (chk_spec _ _ _ _ H R1) as [-> [? ?]]. rewrite swrap_id by lia. auto.
Qed.

Definition keep (x : positive) (f : fact) : bool := negb (Pos.eqb (fc f) x) && negb (Pos.eqb (fh f) x).
Definition new_fact (x : positive) (e : expr) : list fact :=
  match e with
  | Shr (Add _ (V h) (C r)) k => if Pos.eqb h x then [] else if 0 <=? k then [{| fc := x; fh := h; fr := r; fk := k |}] else []
  | Shr (V h) k => if Pos.eqb h x then [] else if 0 <=? k then [{| fc := x; fh := h; fr := 0; fk := k |}] else []
  | _ => []
  end.

Lemma keep_ok x v s fs : Forall (holds s) fs -> Forall (holds (PositiveMap.add x v s)) (filter (keep x) fs).
Proof.
  intros HF. rewrite Forall_forall in *. intros f Hf. apply filter_In in Hf as [Hin Hk].
  specialize (HF f Hin). unfold keep in Hk. unfold holds in *.
  rewrite andb_true_iff, !negb_true_iff, !Pos.eqb_neq in Hk. destruct Hk.
  rewrite !lookup_other by assumption. exact HF.
Qed.
Lemma new_fact_ok x e s : Forall (holds (PositiveMap.add x (ieval s e) s)) (new_fact x e).
Proof.
  unfold new_fact. destruct e as [| | | | |a k| |]; try constructor.
  destruct a as [h| |w a c| | | | |]; try constructor.
  - destruct (Pos.eqb_spec h x) as [|N]; [constructor|]. destruct (Z.leb_spec 0 k); [|constructor].
    constructor; [|constructor]. unfold holds; cbn [fc fh fr fk].
    rewrite lookup_same, lookup_other by assumption. cbn [ieval].
    rewrite Z.shiftr_div_pow2, Z.add_0_r by lia. auto.
  - destruct a as [h| | | | | | |]; try constructor. destruct c as [|r| | | | | |]; try constructor.
    destruct (Pos.eqb_spec h x) as [|N]; [constructor|]. destruct (Z.leb_spec 0 k); [|constructor].
    constructor; [|constructor]. unfold holds; cbn [fc fh fr fk].
    rewrite lookup_same, lookup_other by assumption. cbn [ieval].
    rewrite Z.shiftr_div_pow2 by lia. auto.
Qed.

(** Check a body; return the intervals after it. *)
Fixpoint acheck (p : list stmt) (rs : PositiveMap.t ivl) (fs : list fact) : option (PositiveMap.t ivl) :=
  match p with
  | [] => Some rs
  | Let x e :: p' =>
      match aeval rs fs e with
      | Some i => acheck p' (PositiveMap.add x i rs) (new_fact x e ++ filter (keep x) fs)
      | None => None
      end
  end.

Lemma acheck_sound b p : forall rs fs s rs', env_ok rs s -> Forall (holds s) fs ->
  acheck p rs fs = Some rs' -> exec b p s = Ok (iexec p s) /\ env_ok rs' (iexec p s).
Proof.
  induction p as [|[x e] p IH]; cbn [acheck exec iexec]; intros rs fs s rs' HE HF H.
  - injection H as <-. auto.
  - destruct (aeval rs fs e) as [i|] eqn:E; [|discriminate].
    destruct (aeval_sound b _ _ _ _ HE HF _ E) as [-> R]. rewrite bind_ok.
    refine (IH _ _ _ _ _ _ H).
    + intros y j Hj. destruct (Pos.eq_dec y x) as [->|N].
      * rewrite PositiveMap.gss in Hj. injection Hj as <-. now rewrite lookup_same.
      * rewrite PositiveMap.gso in Hj by assumption. rewrite lookup_other by assumption. now apply HE.
    + apply Forall_app; split; [apply new_fact_ok|now apply keep_ok].
Qed.

Fixpoint bind_ivls (xs : list positive) (is : list ivl) : PositiveMap.t ivl :=
  match xs, is with
  | x :: xs', i :: is' => PositiveMap.add x i (bind_ivls xs' is')
  | _, _ => PositiveMap.empty ivl
  end.
Lemma bind_ivls_ok xs : forall is vs, Forall2 inr is vs -> env_ok (bind_ivls xs is) (bind_args xs vs).
Proof.
  induction xs as [|x xs IH]; intros is vs H y j Hj; cbn [bind_ivls] in Hj.
  - rewrite PositiveMap.gempty in Hj. discriminate.
  - destruct H as [|i v is vs Hi H]; [rewrite PositiveMap.gempty in Hj; discriminate|].
    cbn [bind_args]. destruct (Pos.eq_dec y x) as [->|N].
    + rewrite PositiveMap.gss in Hj. injection Hj as <-. now rewrite lookup_same.
    + rewrite PositiveMap.gso in Hj by assumption. rewrite lookup_other by assumption. now apply (IH is).
Qed.

Definition subi (i j : ivl) : bool := (fst j <=? fst i) && (snd i <=? snd j).
Fixpoint acheck_outs (rs : PositiveMap.t ivl) (es : list expr) (os : list ivl) : bool :=
  match es, os with
  | [], [] => true
  | e :: es', o :: os' =>
      match aeval rs [] e with Some i => subi i o && acheck_outs rs es' os' | None => false end
  | _, _ => false
  end.
Definition bounded (p : prog) (is os : list ivl) : bool :=
  match acheck (body p) (bind_ivls (params p) is) [] with
  | Some rs => acheck_outs rs (outs p) os
  | None => false
  end.

Lemma acheck_outs_sound b rs s es : env_ok rs s -> forall os, acheck_outs rs es os = true ->
  evals b s es = Ok (map (ieval s) es) /\ Forall2 inr os (map (ieval s) es).
Proof.
  intros HE. induction es as [|e es IH]; intros [|o os] H; cbn [acheck_outs] in H; try discriminate.
  - split; constructor.
  - destruct (aeval rs [] e) as [i|] eqn:E; [|discriminate]. apply andb_true_iff in H as [Hs H].
    destruct (aeval_sound b _ [] _ _ HE (Forall_nil _) _ E) as [E1 R].
    destruct (IH _ H) as [E2 R2]. cbn [evals map]. rewrite E1, bind_ok, E2, bind_ok.
    split; [reflexivity|]. constructor; [|exact R2].
    unfold subi, inr in *. rewrite andb_true_iff, !Z.leb_le in Hs. lia.
Qed.

Theorem bounded_sound p is os b vs : bounded p is os = true -> Forall2 inr is vs ->
  run b p vs = Ok (irun p vs) /\ Forall2 inr os (irun p vs).
Proof.
  unfold bounded. intros H HI.
  destruct (acheck (body p) (bind_ivls (params p) is) []) as [rs|] eqn:E; [|discriminate].
  destruct (acheck_sound b _ _ _ _ _ (bind_ivls_ok (params p) _ _ HI) (Forall_nil _) E) as [E1 HE].
  unfold run, irun. rewrite E1, bind_ok. apply (acheck_outs_sound b rs _ _ HE os H).
Qed.

(** ** Polynomials over program variables *)
Definition mono := list positive.
Definition poly := list (Z * mono).
Definition meval (s : env) (m : mono) : Z := fold_right (fun x a => lookup x s * a) 1 m.
Definition peval (s : env) (P : poly) : Z := fold_right (fun cm a => fst cm * meval s (snd cm) + a) 0 P.

Lemma peval_nil s : peval s [] = 0. Proof. reflexivity. Qed.
Lemma peval_cons s cm P : peval s (cm :: P) = fst cm * meval s (snd cm) + peval s P. Proof. reflexivity. Qed.
Lemma peval_app s P Q : peval s (P ++ Q) = peval s P + peval s Q.
Proof. induction P as [|cm P IH]; [reflexivity|]. cbn [app]. rewrite !peval_cons, IH. lia. Qed.
Lemma meval_cons s x m : meval s (x :: m) = lookup x s * meval s m. Proof. reflexivity. Qed.
Lemma meval_app s m n : meval s (m ++ n) = meval s m * meval s n.
Proof. induction m as [|x m IH]; cbn [app]; [cbn [meval fold_right]; lia|]. rewrite !meval_cons, IH. lia. Qed.

Definition pscale (c : Z) (P : poly) : poly := map (fun cm => (c * fst cm, snd cm)) P.
Definition pmulm (c : Z) (m : mono) (P : poly) : poly := map (fun cm => (c * fst cm, m ++ snd cm)) P.
Fixpoint pmul (P Q : poly) : poly :=
  match P with
  | [] => []
  | cm :: P' => pmulm (fst cm) (snd cm) Q ++ pmul P' Q
  end.
Lemma pscale_ok s c P : peval s (pscale c P) = c * peval s P.
Proof.
  induction P as [|cm P IH]; [cbn [pscale map]; rewrite !peval_nil; ring|]. unfold pscale in *. cbn [map]. rewrite !peval_cons, IH.
  cbn [fst snd]. ring.
Qed.
Lemma pmulm_ok s c m P : peval s (pmulm c m P) = c * meval s m * peval s P.
Proof.
  induction P as [|[d n] P IH]; [cbn [pmulm map]; rewrite !peval_nil; ring|]. cbn [pmulm map fst snd]. fold (pmulm c m P).
  rewrite !peval_cons, IH. cbn [fst snd]. rewrite meval_app. ring.
Qed.
Lemma pmul_ok s P Q : peval s (pmul P Q) = peval s P * peval s Q.
Proof.
  induction P as [|[d n] P IH]; [cbn [pmul]; rewrite !peval_nil; ring|]. cbn [pmul fst snd].
  rewrite peval_app, IH, pmulm_ok, peval_cons. cbn [fst snd]. ring.
Qed.

(** Polynomial value of an expression, when it has one. *)
Fixpoint pexpr (e : expr) : option poly :=
  match e with
  | V x => Some [(1, [x])]
  | C n => Some [(n, [])]
  | Add _ a b => obind (pexpr a) (fun P => obind (pexpr b) (fun Q => Some (P ++ Q)))
  | Sub _ a b => obind (pexpr a) (fun P => obind (pexpr b) (fun Q => Some (P ++ pscale (-1) Q)))
  | Mul _ a b => obind (pexpr a) (fun P => obind (pexpr b) (fun Q => Some (pmul P Q)))
  | Shr _ _ => None
  | Shl _ a k => obind (pexpr a) (fun P => Some (pscale (2 ^ k) P))
  | As _ a => pexpr a
  end.
Lemma pexpr_ok s e : forall P, pexpr e = Some P -> peval s P = ieval s e.
Proof.
  induction e as [x|n|w a IHa c IHc|w a IHa c IHc|w a IHa c IHc|a IHa k|w a IHa k|w a IHa];
    cbn [pexpr ieval]; intros P H; try discriminate;
    try (destruct (pexpr a) as [P1|]; [|discriminate]; cbn [obind] in H);
    try (destruct (pexpr c) as [P2|]; [|discriminate]; cbn [obind] in H);
    try (injection H as <-).
  - rewrite peval_cons, peval_nil. cbn [fst snd meval fold_right]. lia.
  - rewrite peval_cons, peval_nil. cbn [fst snd meval fold_right]. lia.
  - rewrite peval_app, (IHa _ eq_refl), (IHc _ eq_refl). reflexivity.
  - rewrite peval_app, pscale_ok, (IHa _ eq_refl), (IHc _ eq_refl). lia.
  - rewrite pmul_ok, (IHa _ eq_refl), (IHc _ eq_refl). reflexivity.
  - rewrite pscale_ok, (IHa _ eq_refl). lia.
  - apply (IHa _ eq_refl).
Qed.

Definition occurs (x : positive) (m : mono) : bool := existsb (Pos.eqb x) m.
(** Substitute [Q] for [x]. *)
Fixpoint msubst (x : positive) (Q : poly) (m : mono) : poly :=
  match m with
  | [] => [(1, [])]
  | y :: m' => if Pos.eqb x y then pmul Q (msubst x Q m') else pmulm 1 [y] (msubst x Q m')
  end.
Fixpoint psubst (x : positive) (Q : poly) (P : poly) : poly :=
  match P with
  | [] => []
  | cm :: P' => if occurs x (snd cm) then pscale (fst cm) (msubst x Q (snd cm)) ++ psubst x Q P'
                else cm :: psubst x Q P'
  end.

Lemma occurs_false x m v s : occurs x m = false -> meval (PositiveMap.add x v s) m = meval s m.
Proof.
  induction m as [|y m IH]; [reflexivity|]. cbn [occurs existsb]. intros H. apply orb_false_iff in H as [H1 H2].
  rewrite !meval_cons, (IH H2). apply Pos.eqb_neq in H1. rewrite lookup_other by congruence. reflexivity.
Qed.
Lemma msubst_ok x Q m s v : peval s Q = v -> peval s (msubst x Q m) = meval (PositiveMap.add x v s) m.
Proof.
  intros HQ. induction m as [|y m IH]; [reflexivity|]. cbn [msubst]. rewrite meval_cons.
  destruct (Pos.eqb_spec x y) as [<-|N].
  - rewrite lookup_same, pmul_ok, HQ, IH. reflexivity.
  - rewrite lookup_other by congruence. rewrite pmulm_ok, IH, meval_cons. cbn [meval fold_right]. lia.
Qed.
Lemma psubst_ok x Q P s v : peval s Q = v -> peval s (psubst x Q P) = peval (PositiveMap.add x v s) P.
Proof.
  intros HQ. induction P as [|cm P IH]; [reflexivity|]. cbn [psubst].
  destruct (occurs x (snd cm)) eqn:E.
  - rewrite peval_app, pscale_ok, (msubst_ok _ _ _ _ _ HQ), IH, peval_cons. reflexivity.
  - rewrite !peval_cons, IH, (occurs_false _ _ _ _ E). reflexivity.
Qed.

(** Drop a variable whose total coefficient vanishes modulo [m]. *)
Fixpoint coef (x : positive) (P : poly) : option (Z * poly) :=
  match P with
  | [] => Some (0, [])
  | (c, m) :: P' =>
      match coef x P' with
      | None => None
      | Some (k, R) =>
          match m with
          | [y] => if Pos.eqb x y then Some (c + k, R) else Some (k, (c, m) :: R)
          | _ => if occurs x m then None else Some (k, (c, m) :: R)
          end
      end
  end.
Lemma coef_ok x P : forall k R s v, coef x P = Some (k, R) ->
  peval (PositiveMap.add x v s) P = k * v + peval s R.
Proof.
  induction P as [|[c m] P IH]; cbn [coef]; intros k R s v H.
  - injection H as <- <-. cbn. lia.
  - destruct (coef x P) as [[k0 R0]|]; [|discriminate]. specialize (IH _ _ s v eq_refl).
    rewrite peval_cons, IH. cbn [fst snd].
    assert (G : occurs x m = false -> Some (k0, (c, m) :: R0) = Some (k, R) ->
      c * meval (PositiveMap.add x v s) m + (k0 * v + peval s R0) = k * v + peval s R).
    { intros O E. injection E as <- <-. rewrite peval_cons, (occurs_false _ _ _ _ O). cbn [fst snd]. lia. }
    destruct m as [|y [|z m]].
    + apply G; [reflexivity|exact H].
    + destruct (Pos.eqb_spec x y) as [<-|N].
      * injection H as <- <-. rewrite meval_cons, lookup_same. cbn [meval fold_right]. lia.
      * apply G; [|exact H]. cbn [occurs existsb]. apply Pos.eqb_neq in N. rewrite N. reflexivity.
    + destruct (occurs x (y :: z :: m)) eqn:E; [discriminate|]. apply G; [reflexivity|exact H].
Qed.

Definition divs (m k : Z) : bool := if k =? 0 then true else k mod m =? 0.

(** Backwards through a body. *)
Fixpoint wp (m : Z) (p : list stmt) (P : poly) : option poly :=
  match p with
  | [] => Some P
  | Let x e :: p' =>
      match wp m p' P with
      | None => None
      | Some P' =>
          match pexpr e with
          | Some Q => Some (psubst x Q P')
          | None => match coef x P' with
                    | Some (k, R) => if divs m k then Some R else None
                    | None => None
                    end
          end
      end
  end.


(** Congruence modulo [m]. *)
Definition eqm (m a b : Z) : Prop := exists k, a = b + k * m.
Lemma eqm_refl m a : eqm m a a.
Proof. exists 0; lia. Qed.
Lemma eqm_sym m a b : eqm m a b -> eqm m b a.
Proof. intros [k H]. exists (- k). lia. Qed.
Lemma eqm_trans m a b c : eqm m a b -> eqm m b c -> eqm m a c.
Proof. intros [k H] [j G]. exists (k + j). lia. Qed.
Lemma eqm_add m a b c d : eqm m a b -> eqm m c d -> eqm m (a + c) (b + d).
Proof. intros [k H] [j G]. exists (k + j). lia. Qed.
Lemma eqm_sub m a b c d : eqm m a b -> eqm m c d -> eqm m (a - c) (b - d).
Proof. intros [k H] [j G]. exists (k - j). lia. Qed.
Lemma eqm_mul m a b c d : eqm m a b -> eqm m c d -> eqm m (a * c) (b * d).
Proof. intros [k ->] [j ->]. exists (k * d + b * j + k * j * m). ring. Qed.
Lemma eqm_mod m a b : m <> 0 -> eqm m a b <-> a mod m = b mod m.
Proof.
  intros Hm. split.
  - intros [k ->]. now apply Z.mod_add.
  - intros H. exists (a / m - b / m). pose proof (Z.div_mod a m Hm). pose proof (Z.div_mod b m Hm). lia.
Qed.

Lemma divs_ok m k : m <> 0 -> divs m k = true -> eqm m k 0.
Proof.
  unfold divs. intros Hm H. destruct (Z.eqb_spec k 0) as [->|N]; [apply eqm_refl|].
  apply Z.eqb_eq in H. exists (k / m). pose proof (Z.div_mod k m Hm). lia.
Qed.

Lemma wp_ok m p : m <> 0 -> forall P R s, wp m p P = Some R -> eqm m (peval (iexec p s) P) (peval s R).
Proof.
  intros Hm. induction p as [|[x e] p IH]; cbn [wp iexec]; intros P R s H.
  - injection H as <-. apply eqm_refl.
  - destruct (wp m p P) as [P'|] eqn:E; [|discriminate].
    eapply eqm_trans; [apply (IH _ _ _ E)|].
    destruct (pexpr e) as [Q|] eqn:EQ.
    + injection H as <-. rewrite (psubst_ok _ _ _ _ _ (pexpr_ok s _ _ EQ)). apply eqm_refl.
    + destruct (coef x P') as [[k R']|] eqn:EC; [|discriminate].
      destruct (divs m k) eqn:ED; [|discriminate]. injection H as <-.
      rewrite (coef_ok _ _ _ _ s (ieval s e) EC).
      replace (peval s R') with (0 * ieval s e + peval s R') at 2 by lia.
      apply eqm_add; [|apply eqm_refl]. apply eqm_mul; [|apply eqm_refl]. now apply divs_ok.
Qed.

(** ** Normal forms, to compare polynomials *)
Fixpoint minsert (x : positive) (m : mono) : mono :=
  match m with
  | [] => [x]
  | y :: m' => if Pos.leb x y then x :: m else y :: minsert x m'
  end.
Definition msort (m : mono) : mono := fold_right minsert [] m.
Fixpoint mcmp (m n : mono) : comparison :=
  match m, n with
  | [], [] => Eq
  | [], _ :: _ => Lt
  | _ :: _, [] => Gt
  | x :: m', y :: n' => match Pos.compare x y with Eq => mcmp m' n' | c => c end
  end.
Fixpoint pinsert (c : Z) (m : mono) (P : poly) : poly :=
  match P with
  | [] => [(c, m)]
  | (d, n) :: P' =>
      match mcmp m n with
      | Eq => (c + d, n) :: P'
      | Lt => (c, m) :: P
      | Gt => (d, n) :: pinsert c m P'
      end
  end.
Definition pnorm (P : poly) : poly := fold_right (fun cm Q => pinsert (fst cm) (msort (snd cm)) Q) [] P.
Definition pzero (m : Z) (P : poly) : bool := forallb (fun cm => divs m (fst cm)) (pnorm P).

Lemma minsert_ok s x m : meval s (minsert x m) = lookup x s * meval s m.
Proof.
  induction m as [|y m IH]; [reflexivity|]. cbn [minsert]. destruct (Pos.leb x y); [reflexivity|].
  rewrite !meval_cons, IH. ring.
Qed.
Lemma msort_ok s m : meval s (msort m) = meval s m.
Proof. induction m as [|x m IH]; [reflexivity|]. cbn [msort fold_right]. fold (msort m). rewrite minsert_ok, IH. reflexivity. Qed.
Lemma mcmp_eq m : forall n, mcmp m n = Eq -> m = n.
Proof.
  induction m as [|x m IH]; intros [|y n]; cbn [mcmp]; try discriminate; auto.
  destruct (Pos.compare_spec x y) as [->| |]; try discriminate. intros H. f_equal. now apply IH.
Qed.
Lemma pinsert_ok s c m P : peval s (pinsert c m P) = c * meval s m + peval s P.
Proof.
  induction P as [|[d n] P IH]; [reflexivity|]. cbn [pinsert].
  destruct (mcmp m n) eqn:E; rewrite ?peval_cons, ?IH; cbn [fst snd]; rewrite ?peval_cons; cbn [fst snd].
  - apply mcmp_eq in E as <-. ring.
  - reflexivity.
  - ring.
Qed.
Lemma pnorm_ok s P : peval s (pnorm P) = peval s P.
Proof.
  induction P as [|cm P IH]; [reflexivity|]. cbn [pnorm fold_right]. fold (pnorm P).
  rewrite pinsert_ok, msort_ok, IH. reflexivity.
Qed.
Lemma pzero_ok m s P : m <> 0 -> pzero m P = true -> eqm m (peval s P) 0.
Proof.
  intros Hm H. rewrite <- pnorm_ok. unfold pzero in H. revert H.
  induction (pnorm P) as [|cm Q IH]; cbn [forallb]; intros H; [apply eqm_refl|].
  apply andb_true_iff in H as [H1 H2]. rewrite peval_cons.
  change 0 with (0 + 0). apply eqm_add; [|now apply IH].
  replace 0 with (0 * meval s (snd cm)) by lia. apply eqm_mul; [|apply eqm_refl]. now apply divs_ok.
Qed.

(** Weighted sum of output expressions. *)
Fixpoint wsum (ws : list Z) (vs : list Z) : Z :=
  match ws, vs with
  | w :: ws', v :: vs' => w * v + wsum ws' vs'
  | _, _ => 0
  end.
Fixpoint wpoly (ws : list Z) (es : list expr) : option poly :=
  match ws, es with
  | w :: ws', e :: es' =>
      obind (pexpr e) (fun P => obind (wpoly ws' es') (fun Q => Some (pscale w P ++ Q)))
  | _, _ => Some []
  end.
Lemma wpoly_ok s ws : forall es P, wpoly ws es = Some P -> peval s P = wsum ws (map (ieval s) es).
Proof.
  induction ws as [|w ws IH]; intros [|e es] P H; cbn [wpoly] in H; try (injection H as <-; reflexivity).
  destruct (pexpr e) as [P1|] eqn:E; [|discriminate]. cbn [obind] in H.
  destruct (wpoly ws es) as [P2|] eqn:E2; [|discriminate]. cbn [obind] in H. injection H as <-.
  rewrite peval_app, pscale_ok, (pexpr_ok _ _ _ E), (IH _ _ E2). reflexivity.
Qed.
(** The weighted sum of the parameters [xs], as a polynomial. *)
Fixpoint wparams (ws : list Z) (xs : list positive) : poly :=
  match ws, xs with
  | w :: ws', x :: xs' => (w, [x]) :: wparams ws' xs'
  | _, _ => []
  end.

Definition congr (m : Z) (p : prog) (ws : list Z) (T : poly) : bool :=
  match wpoly ws (outs p) with
  | Some P => match wp m (body p) P with
              | Some R => pzero m (R ++ pscale (-1) T)
              | None => false
              end
  | None => false
  end.
Theorem congr_sound m p ws T vs : m <> 0 -> congr m p ws T = true ->
  eqm m (wsum ws (irun p vs)) (peval (bind_args (params p) vs) T).
Proof.
  unfold congr, irun. intros Hm H.
  destruct (wpoly ws (outs p)) as [P|] eqn:E1; [|discriminate].
  destruct (wp m (body p) P) as [R|] eqn:E2; [|discriminate].
  set (s := bind_args (params p) vs).
  rewrite <- (wpoly_ok _ _ _ _ E1).
  eapply eqm_trans; [apply (wp_ok m _ Hm _ _ s E2)|].
  pose proof (pzero_ok m s _ Hm H) as Hz. rewrite peval_app, pscale_ok in Hz.
  destruct Hz as [k Hk]. exists k. lia.
Qed.
