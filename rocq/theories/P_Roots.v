(** Polynomials over an integral domain have at most as many roots as their degree. *)
From Verif Require Import BaseFacts.
From Coq Require Import Ring.

Section Roots.
Variable A : Type.
Variables (z o : A) (add mul sub : A -> A -> A) (opp : A -> A).
Hypothesis rth : ring_theory z o add mul sub opp (@eq A).
Hypothesis dec : forall x y : A, {x = y} + {x <> y}.
Hypothesis integral : forall x y, mul x y = z -> x = z \/ y = z.
Hypothesis search : forall Q : A -> Prop, (forall x, Q x \/ ~ Q x) -> (exists x, Q x) \/ (forall x, ~ Q x).
Add Ring Aring : rth.

(** Coefficients, constant term first. *)
Fixpoint peval (c : list A) (x : A) : A :=
  match c with [] => z | a :: c' => add a (mul x (peval c' x)) end.
Definition pzero (c : list A) : Prop := Forall (fun a => a = z) c.

Lemma peval_zero c x : pzero c -> peval c x = z.
Proof. induction 1 as [|a c Ha Hc IH]; [reflexivity|]. cbn [peval]. rewrite Ha, IH. ring. Qed.

Lemma pfactor r : forall c, exists q, length q = pred (length c) /\
  (forall x, peval c x = add (peval c r) (mul (sub x r) (peval q x))) /\
  (pzero q -> pzero (tl c)).
Proof.
  induction c as [|a c (q & Lq & Eq & Zq)].
  - exists []. split; [reflexivity|]. split; [intros x; cbn [peval]; ring|intros _; constructor].
  - destruct c as [|a' c].
    + exists []. split; [reflexivity|]. split; [intros x; cbn [peval]; ring|intros _; constructor].
    + exists (peval (a' :: c) r :: q). split; [cbn [length] in *; lia|]. split.
      * intros x. specialize (Eq x). set (d := a' :: c) in *. cbn [peval]. rewrite Eq. ring.
      * intros H. inversion_clear H as [|? ? H1 H2]. cbn [tl]. specialize (Zq H2). cbn [tl] in Zq.
        constructor; [|exact Zq]. cbn [peval] in H1. rewrite (peval_zero c r Zq) in H1. rewrite <- H1. ring.
Qed.

Lemma pzero_dec c : pzero c \/ ~ pzero c.
Proof.
  induction c as [|a c IH]; [left; constructor|]. destruct (dec a z) as [E|N].
  - destruct IH as [H|H]; [left; now constructor|right]. intros C. inversion C. contradiction.
  - right. intros C. inversion C. contradiction.
Qed.

Theorem roots_bound : forall n c, length c = n -> ~ pzero c ->
  exists bad, (length bad <= pred n)%nat /\ forall x, peval c x = z -> In x bad.
Proof.
  induction n as [|n IH]; intros c Lc Nz.
  - destruct c; [|discriminate]. exfalso. apply Nz. constructor.
  - destruct (search (fun x => peval c x = z)) as [[r Hr]|No].
    + intros x. destruct (dec (peval c x) z); auto.
    + destruct (pfactor r c) as (q & Lq & Eq & Zq).
      assert (Nq : ~ pzero q).
      { intros H. apply Nz. specialize (Zq H). destruct c as [|a c]; [constructor|]. cbn [tl] in Zq.
        constructor; [|exact Zq]. cbn [peval] in Hr. rewrite (peval_zero c r Zq) in Hr. rewrite <- Hr. ring. }
      assert (Hq : q <> []) by (intros ->; apply Nq; constructor).
      destruct (IH q) as (bad & Lb & Hb); [rewrite Lq, Lc; reflexivity|exact Nq|].
      exists (r :: bad). split.
      * cbn [length pred]. assert (n <> 0)%nat by (intros ->; apply Hq; destruct q; [reflexivity|cbn [length] in Lq; lia]). lia.
      * intros x Hx. rewrite Eq, Hr in Hx.
        assert (E : mul (sub x r) (peval q x) = z) by (rewrite <- Hx; ring).
        apply integral in E. destruct E as [E|E]; [left|right; now apply Hb].
        assert (G : x = add (sub x r) r) by ring. rewrite G, E. ring.
    + exists []. split; [apply Nat.le_0_l|]. intros x Hx. exact (No x Hx).
Qed.

(** Pointwise difference of two polynomials. *)
Fixpoint psub (c d : list A) : list A :=
  match c, d with
  | [], _ => map opp d
  | _, [] => c
  | a :: c', b :: d' => sub a b :: psub c' d'
  end.
Lemma peval_opp d x : peval (map opp d) x = opp (peval d x).
Proof. induction d as [|b d IH]; cbn [map peval]; [ring|]. rewrite IH. ring. Qed.
Lemma peval_psub x : forall c d, peval (psub c d) x = sub (peval c x) (peval d x).
Proof.
  induction c as [|a c IH]; intros d; cbn [psub].
  - rewrite peval_opp. cbn [peval]. ring.
  - destruct d as [|b d]; cbn [peval]; [ring|]. rewrite IH. ring.
Qed.
Lemma psub_length : forall c d, length (psub c d) = Nat.max (length c) (length d).
Proof.
  induction c as [|a c IH]; intros d; cbn [psub length]; [apply map_length|].
  destruct d as [|b d]; cbn [length]; [reflexivity|]. now rewrite IH.
Qed.
Lemma sub_zero a b : sub a b = z -> a = b.
Proof. intros H. assert (G : a = add (sub a b) b) by ring. rewrite G, H. ring. Qed.
(** The difference is zero only when the shorter list, extended by zeros, is the longer one. *)
Lemma psub_zero : forall c d, pzero (psub c d) -> forall i, nth i c z = nth i d z.
Proof.
  induction c as [|a c IH]; intros d H i; cbn [psub] in H.
  - revert i. induction d as [|b d IHd]; intros i; [reflexivity|]. cbn [map] in H. inversion_clear H as [|? ? H1 H2].
    specialize (IHd H2). destruct i as [|i]; cbn [nth].
    + assert (G : b = opp (opp b)) by ring. rewrite G, H1. ring.
    + specialize (IHd i). rewrite <- IHd. now destruct i.
  - destruct d as [|b d].
    + clear IH. revert i. revert c a H. fix IHc 1. intros c a H i. inversion_clear H as [|? ? H1 H2].
      destruct i as [|i]; [exact H1|]. destruct c as [|a' c]; [now destruct i|].
      change (nth (S i) (a :: a' :: c) z) with (nth i (a' :: c) z). rewrite (IHc c a' H2 i). now destruct i.
    + inversion_clear H as [|? ? H1 H2]. destruct i as [|i]; [exact (sub_zero a b H1)|]. exact (IH d H2 i).
Qed.

(** Horner's rule from the left, as the hash functions compute it. *)
Lemma peval_app x : forall c d, peval (c ++ d) x = add (peval c x) (mul (Nat.iter (length c) (mul x) o) (peval d x)).
Proof.
  induction c as [|a c IH]; intros d; [change (Nat.iter (length (@nil A)) (mul x) o) with o; cbn [app peval]; ring|].
  change (Nat.iter (length (a :: c)) (mul x) o) with (mul x (Nat.iter (length c) (mul x) o)).
  cbn [app peval]. rewrite IH. ring.
Qed.
Lemma fold_horner x : forall l, fold_left (fun y a => mul x (add y a)) l z = peval (z :: rev l) x.
Proof.
  induction l as [|a l IH] using rev_ind; [cbn [rev fold_left peval]; ring|].
  rewrite fold_left_app, rev_app_distr. cbn [fold_left rev app]. rewrite IH. cbn [peval]. ring.
Qed.
End Roots.
