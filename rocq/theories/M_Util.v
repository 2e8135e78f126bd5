(** Model of src/util.rs. *)
From Verif Require Import Base.

(** util.rs:9-13 [verify_inner]: asserts equal lengths, then ORs together the
    XORs of corresponding bytes.  [u8] values. *)
Definition verify_inner (x y : list Z) : res Z :=
  let! _ := assertb (length x =? length y)%nat in
  Ok (fold_left (fun acc xy => Z.lor acc (Z.lxor (fst xy) (snd xy))) (combine x y) 0).

(** util.rs:4-6 [verify_16]: [x] is a [u8; 16], [y] a slice of any length;
    [&&] short-circuits, so the assertion is not reached for other lengths. *)
Definition verify_16 (x y : list Z) : res bool :=
  if (length x =? length y)%nat
  then let! d := verify_inner x y in Ok (d =? 0)
  else Ok false.
