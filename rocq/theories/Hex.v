(** Parsing of hexadecimal and text literals, used only by the test-vector
    examples (the repository's [test_helpers::h2b], lib.rs:27-32). *)
From Coq Require Import String Ascii.
From Verif Require Import Base.
Definition hexval (c : ascii) : Z :=
  let n := Z.of_nat (nat_of_ascii c) in
  if n <=? 57 then n - 48 else n - 87.
Fixpoint h2b (s : string) : list Z :=
  match s with
  | String c1 (String c2 s') => (16 * hexval c1 + hexval c2) :: h2b s'
  | _ => []
  end.
Fixpoint s2b (s : string) : list Z :=
  match s with
  | String c s' => Z.of_nat (nat_of_ascii c) :: s2b s'
  | EmptyString => []
  end.
Delimit Scope string_scope with string.
Bind Scope string_scope with string.
