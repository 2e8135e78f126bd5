(** A build without overflow checks returns whatever a build with them returns. *)
From Verif Require Import BaseFacts.

Definition rle {A} (e1 e2 : res A) : Prop := forall x, e1 = Ok x -> e2 = Ok x.

Lemma rle_refl {A} (e : res A) : rle e e.
Proof. intros x H; exact H. Qed.
Lemma rle_bind {A B} (e1 e2 : res A) (k1 k2 : A -> res B) :
  rle e1 e2 -> (forall a, rle (k1 a) (k2 a)) -> rle (bind e1 k1) (bind e2 k2).
Proof. intros H K x. destruct e1 as [a|]; cbn; [|discriminate]. rewrite (H a eq_refl). apply K. Qed.
Lemma rle_uchk w v : rle (uchk Checked w v) (uchk Unchecked w v).
Proof. intros x. unfold uchk. destruct (_ && _); [auto|discriminate]. Qed.
Lemma rle_schk w v : rle (schk Checked w v) (schk Unchecked w v).
Proof. intros x. unfold schk. destruct (_ && _); [auto|discriminate]. Qed.
Lemma rle_any {A} (f : build -> res A) : rle (f Checked) (f Unchecked) ->
  forall b x, f Checked = Ok x -> f b = Ok x.
Proof. intros H [|] x; auto. Qed.

(** Decompose both sides in parallel. *)
Ltac mono_step :=
  match goal with
  | |- rle ?x ?x => apply rle_refl
  | |- rle (uchk Checked _ _) _ => apply rle_uchk
  | |- rle (schk Checked _ _) _ => apply rle_schk
  | |- rle (bind _ _) _ => apply rle_bind; [|intros ?]
  | |- rle (if ?c then _ else _) _ => destruct c
  | |- rle (match ?p with pair _ _ => _ end) _ => destruct p
  | H : _ |- _ => solve [apply H]
  end.
Ltac mono := repeat mono_step.
