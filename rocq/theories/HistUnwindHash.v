(** Which [update] calls of a history panic, and which bytes have been absorbed at the end. *)
From Verif Require Import Base.

(** Starting from [total] bytes: with overflow checks a call that would bring the total to 2^64 or more panics and absorbs
    nothing; without them no call panics. *)
Fixpoint absorb (b : build) (total : Z) (inputs : list (list Z)) : list bool * list Z :=
  match inputs with
  | [] => ([], [])
  | i :: l =>
      match b with
      | Checked =>
          if total + len i <? 2 ^ 64
          then let (v, m) := absorb b (total + len i) l in (false :: v, i ++ m)
          else let (v, m) := absorb b total l in (true :: v, m)
      | Unchecked => let (v, m) := absorb b (total + len i) l in (false :: v, i ++ m)
      end
  end.
