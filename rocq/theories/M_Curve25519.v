(** Model of src/curve25519.rs: field elements modulo 2^255 - 19 in ten signed
    limbs, and the X25519 Montgomery ladder.  An [Fe] is the list of its ten
    [i32] limbs. *)
From Verif Require Import Base M_Slp M_FeProg.

(** [x[i]] on a slice, and [&x[n..]]. *)
Definition idx (l : list Z) (i : nat) : res Z :=
  match nth_error l i with Some v => Ok v | None => Panic end.
Definition from (l : list Z) (n : nat) : res (list Z) :=
  if (n <=? length l)%nat then Ok (skipn n l) else Panic.

(** curve25519.rs:31-37 [verify_32]: [i32] arithmetic on the bytes. *)
Definition verify_32 (b : build) (x y : list Z) : res Z :=
  let differentbits :=
    fold_left (fun acc xy => Z.lor acc (Z.lxor (fst xy) (snd xy))) (combine x y) 0 in
  let! d := schk b 32 (differentbits - 1) in
  schk b 32 (Z.land 1 (Z.shiftr d 8) - 1).

(** curve25519.rs:39-44 [load_3], 46-52 [load_4]: [u64] values. *)
Definition load_3 (x : list Z) : res Z :=
  let! x0 := idx x 0 in
  let! x1 := idx x 1 in
  let r := Z.lor x0 (ushl 64 x1 8) in
  let! x2 := idx x 2 in
  Ok (Z.lor r (ushl 64 x2 16)).
Definition load_4 (x : list Z) : res Z :=
  let! x0 := idx x 0 in
  let! x1 := idx x 1 in
  let r := Z.lor x0 (ushl 64 x1 8) in
  let! x2 := idx x 2 in
  let r := Z.lor r (ushl 64 x2 16) in
  let! x3 := idx x 3 in
  Ok (Z.lor r (ushl 64 x3 24)).
(** [load_3(&s[n..])], [load_4(&s[n..])]. *)
Definition load_3_at (s : list Z) (n : nat) : res Z := let! x := from s n in load_3 x.
Definition load_4_at (s : list Z) (n : nat) : res Z := let! x := from s n in load_4 x.

Definition fe := list Z.

(** curve25519.rs:605-609 [assign_zero] (also [Fe::default()]), 611-617 [assign_one]. *)
Definition fe_zero : fe := repeat 0 10.
Definition fe_one : fe := 1 :: repeat 0 9.

(** Limb-wise [i32] operation on zipped limbs. *)
Fixpoint limbs2 (b : build) (op : Z -> Z -> Z) (f g : fe) : res fe :=
  match f, g with
  | x :: f', y :: g' =>
      let! v := schk b 32 (op x y) in
      let! r := limbs2 b op f' g' in
      Ok (v :: r)
  | _, _ => Ok []
  end.

(** curve25519.rs:619-623 [assign_sum] and 991-1005 [+=]. *)
Definition fe_add (b : build) (f g : fe) : res fe := limbs2 b Z.add f g.
(** curve25519.rs:886-890 [assign_difference] and 1019-1033 [-=]. *)
Definition fe_sub (b : build) (f g : fe) : res fe := limbs2 b Z.sub f g.
(** curve25519.rs:892-896 [subtract_from]: [self = f - self]. *)
Definition fe_subtract_from (b : build) (self f : fe) : res fe := limbs2 b (fun l r => r - l) self f.

(** curve25519.rs:758-760 [assign_product] and 1007-1017 [*=]. *)
Definition fe_mul (b : build) (f g : fe) : res fe := run b fe_mul_prog (f ++ g).
(** curve25519.rs:878-884 [assign_square], [square]. *)
Definition fe_sq (b : build) (f : fe) : res fe := run b fe_sq_prog f.
(** curve25519.rs:762-828 [mul121666]. *)
Definition fe_mul121666 (b : build) (f : fe) : res fe := run b mul121666_prog f.

(** curve25519.rs:625-689 [cswap_with]: both elements after the call.  [c] is
    a [u32]; [c.wrapping_neg() as i32] is the mask. *)
Definition cswap_mask (c : Z) : Z := swrap 32 ((- c) mod 2 ^ 32).
Definition fe_cswap (f g : fe) (c : Z) : fe * fe :=
  let m := cswap_mask c in
  let x := zipwith (fun u v => Z.land (Z.lxor u v) m) f g in
  (zipwith Z.lxor f x, zipwith Z.lxor g x).

(** curve25519.rs:691-746 [assign_from_bytes]. *)
Definition fe_from_bytes (b : build) (s : list Z) : res fe :=
  let! l0 := load_4 s in
  let! l1 := load_3_at s 4 in
  let! l2 := load_3_at s 7 in
  let! l3 := load_3_at s 10 in
  let! l4 := load_3_at s 13 in
  let! l5 := load_4_at s 16 in
  let! l6 := load_3_at s 20 in
  let! l7 := load_3_at s 23 in
  let! l8 := load_3_at s 26 in
  let! l9 := load_3_at s 29 in
  run b from_bytes_prog
    [swrap 64 l0; swrap 64 (ushl 64 l1 6); swrap 64 (ushl 64 l2 5); swrap 64 (ushl 64 l3 3);
     swrap 64 (ushl 64 l4 2); swrap 64 l5; swrap 64 (ushl 64 l6 7); swrap 64 (ushl 64 l7 5);
     swrap 64 (ushl 64 l8 4); swrap 64 (ushl 64 (Z.land l9 8388607) 2)].

(** curve25519.rs:57-63 macro [square_many!(f, n)]: [n - 1] squarings. *)
Fixpoint sq_times (b : build) (n : nat) (f : fe) : res fe :=
  match n with
  | O => Ok f
  | S n' => let! f := fe_sq b f in sq_times b n' f
  end.
Definition square_many (b : build) (f : fe) (n : nat) : res fe := sq_times b (n - 1) f.

(** curve25519.rs:65-118 macro [fe_invert!], used by [inverse] (748-752) and
    [invert] (754-756). *)
Definition fe_invert (b : build) (z : fe) : res fe :=
  let! t0 := fe_sq b z in
  let! t1 := fe_sq b t0 in
  let! t1 := fe_sq b t1 in
  let! t1 := fe_mul b t1 z in
  let! t0 := fe_mul b t0 t1 in
  let! t2 := fe_sq b t0 in
  let! t1 := fe_mul b t1 t2 in
  let! t2 := fe_sq b t1 in
  let! t2 := square_many b t2 5 in
  let! t1 := fe_mul b t1 t2 in
  let! t2 := fe_sq b t1 in
  let! t2 := square_many b t2 10 in
  let! t2 := fe_mul b t2 t1 in
  let! t3 := fe_sq b t2 in
  let! t3 := square_many b t3 20 in
  let! t2 := fe_mul b t2 t3 in
  let! t2 := square_many b t2 11 in
  let! t1 := fe_mul b t1 t2 in
  let! t2 := fe_sq b t1 in
  let! t2 := square_many b t2 50 in
  let! t2 := fe_mul b t2 t1 in
  let! t3 := fe_sq b t2 in
  let! t3 := square_many b t3 100 in
  let! t2 := fe_mul b t2 t3 in
  let! t2 := square_many b t2 51 in
  let! t1 := fe_mul b t1 t2 in
  let! t1 := square_many b t1 6 in
  fe_mul b t1 t0.

(** curve25519.rs:830-876 [pow22523]. *)
Definition fe_pow22523 (b : build) (z : fe) : res fe :=
  let! t0 := fe_sq b z in
  let! t1 := fe_sq b t0 in
  let! t1 := fe_sq b t1 in
  let! t1 := fe_mul b t1 z in
  let! t0 := fe_mul b t0 t1 in
  let! t0 := fe_sq b t0 in
  let! t0 := fe_mul b t0 t1 in
  let! t1 := fe_sq b t0 in
  let! t1 := square_many b t1 5 in
  let! t0 := fe_mul b t0 t1 in
  let! t1 := fe_sq b t0 in
  let! t1 := square_many b t1 10 in
  let! t1 := fe_mul b t1 t0 in
  let! t2 := fe_sq b t1 in
  let! t2 := square_many b t2 20 in
  let! t1 := fe_mul b t1 t2 in
  let! t1 := square_many b t1 11 in
  let! t0 := fe_mul b t0 t1 in
  let! t1 := fe_sq b t0 in
  let! t1 := square_many b t1 50 in
  let! t1 := fe_mul b t1 t0 in
  let! t2 := fe_sq b t1 in
  let! t2 := square_many b t2 100 in
  let! t1 := fe_mul b t1 t2 in
  let! t1 := square_many b t1 51 in
  let! t0 := fe_mul b t0 t1 in
  let! t0 := fe_sq b t0 in
  let! t0 := fe_sq b t0 in
  fe_mul b z t0.

(** curve25519.rs:913-922: one line [q = (h + q) >> k] of the computation of [q]. *)
Definition q_step (b : build) (h q k : Z) : res Z :=
  let! t := schk b 32 (h + q) in Ok (Z.shiftr t k).

(** [x << k] and [as u8] on an [i32]. *)
Definition shl32 (x k : Z) : Z := swrap 32 (Z.shiftl x k).
Definition as_u8 (x : Z) : Z := x mod 256.

(** curve25519.rs:956-987: the stores of [write_bytes]. *)
Definition fe_bytes (h : fe) : list Z :=
  let h0 := get h 0 in let h1 := get h 1 in let h2 := get h 2 in let h3 := get h 3 in
  let h4 := get h 4 in let h5 := get h 5 in let h6 := get h 6 in let h7 := get h 7 in
  let h8 := get h 8 in let h9 := get h 9 in
  [as_u8 h0; as_u8 (Z.shiftr h0 8); as_u8 (Z.shiftr h0 16);
   as_u8 (Z.lor (Z.shiftr h0 24) (shl32 h1 2));
   as_u8 (Z.shiftr h1 6); as_u8 (Z.shiftr h1 14);
   as_u8 (Z.lor (Z.shiftr h1 22) (shl32 h2 3));
   as_u8 (Z.shiftr h2 5); as_u8 (Z.shiftr h2 13);
   as_u8 (Z.lor (Z.shiftr h2 21) (shl32 h3 5));
   as_u8 (Z.shiftr h3 3); as_u8 (Z.shiftr h3 11);
   as_u8 (Z.lor (Z.shiftr h3 19) (shl32 h4 6));
   as_u8 (Z.shiftr h4 2); as_u8 (Z.shiftr h4 10); as_u8 (Z.shiftr h4 18);
   as_u8 h5; as_u8 (Z.shiftr h5 8); as_u8 (Z.shiftr h5 16);
   as_u8 (Z.lor (Z.shiftr h5 24) (shl32 h6 1));
   as_u8 (Z.shiftr h6 7); as_u8 (Z.shiftr h6 15);
   as_u8 (Z.lor (Z.shiftr h6 23) (shl32 h7 3));
   as_u8 (Z.shiftr h7 5); as_u8 (Z.shiftr h7 13);
   as_u8 (Z.lor (Z.shiftr h7 21) (shl32 h8 4));
   as_u8 (Z.shiftr h8 4); as_u8 (Z.shiftr h8 12);
   as_u8 (Z.lor (Z.shiftr h8 20) (shl32 h9 6));
   as_u8 (Z.shiftr h9 2); as_u8 (Z.shiftr h9 10); as_u8 (Z.shiftr h9 18)].

(** curve25519.rs:898-988 [write_bytes], for the 32-byte buffers all callers
    pass: the contents of the buffer after the call. *)
Definition fe_write_bytes (b : build) (h : fe) : res (list Z) :=
  let! t := schk b 32 (19 * get h 9) in
  let! t := schk b 32 (t + 2 ^ 24) in
  let q := Z.shiftr t 25 in
  let! q := q_step b (get h 0) q 26 in
  let! q := q_step b (get h 1) q 25 in
  let! q := q_step b (get h 2) q 26 in
  let! q := q_step b (get h 3) q 25 in
  let! q := q_step b (get h 4) q 26 in
  let! q := q_step b (get h 5) q 25 in
  let! q := q_step b (get h 6) q 26 in
  let! q := q_step b (get h 7) q 25 in
  let! q := q_step b (get h 8) q 26 in
  let! q := q_step b (get h 9) q 25 in
  let! h := run b write_bytes_prog (h ++ [q]) in
  Ok (fe_bytes h).

(** The variables [x2], [z2], [x3], [z3], [swap] of the loop of [scalarmult]. *)
Record ladder := { lx2 : fe; lz2 : fe; lx3 : fe; lz3 : fe; lswap : Z }.

(** curve25519.rs:547-588: one iteration, for the bit [bit] of [e]. *)
Definition ladder_step (b : build) (x1 : fe) (st : ladder) (bit : Z) : res ladder :=
  let swap := Z.lxor (lswap st) bit in
  let (x2, x3) := fe_cswap (lx2 st) (lx3 st) swap in
  let (z2, z3) := fe_cswap (lz2 st) (lz3 st) swap in
  let swap := bit in
  let! tmp0 := fe_sub b x3 z3 in
  let! tmp1 := fe_sub b x2 z2 in
  let! x2 := fe_add b x2 z2 in
  let! z2 := fe_add b x3 z3 in
  let! z3 := fe_mul b tmp0 x2 in
  let! z2 := fe_mul b z2 tmp1 in
  let! tmp0 := fe_sq b tmp1 in
  let! tmp1 := fe_sq b x2 in
  let! x3 := fe_add b z3 z2 in
  let! z2 := fe_subtract_from b z2 z3 in
  let! x2 := fe_mul b tmp1 tmp0 in
  let! tmp1 := fe_sub b tmp1 tmp0 in
  let! z2 := fe_sq b z2 in
  let! z3 := fe_mul121666 b tmp1 in
  let! x3 := fe_sq b x3 in
  let! tmp0 := fe_add b tmp0 z3 in
  let! z3 := fe_mul b x1 z2 in
  let! z2 := fe_mul b tmp1 tmp0 in
  Ok {| lx2 := x2; lz2 := z2; lx3 := x3; lz3 := z3; lswap := swap |}.

(** curve25519.rs:546-589: the loop over [pos] in [(0..255).rev()]; [n] is the
    number of positions left. *)
Fixpoint ladder_loop (b : build) (e : list Z) (x1 : fe) (n : nat) (st : ladder) : res ladder :=
  match n with
  | O => Ok st
  | S pos =>
      let! byte := idx e (pos / 8) in
      let bit := Z.land (Z.shiftr byte (Z.of_nat (Nat.land pos 7))) 1 in
      let! st := ladder_step b x1 st bit in
      ladder_loop b e x1 pos st
  end.

(** curve25519.rs:535-538: the copy of the scalar, clamped. *)
Definition clamp_x25519 (n : list Z) : list Z :=
  let e := upd n 0 (Z.land (get n 0) 248) in
  let e := upd e 31 (Z.land (get e 31) 127) in
  upd e 31 (Z.lor (get e 31) 64).

(** curve25519.rs:521-596 [scalarmult]: the contents of [q] after the call. *)
Definition scalarmult (b : build) (n p : list Z) : res (list Z) :=
  let! _ := assertb (32 =? length n)%nat in
  let! _ := assertb (32 =? length p)%nat in
  let e := clamp_x25519 n in
  let! x1 := fe_from_bytes b p in
  let! st := ladder_loop b e x1 255
    {| lx2 := fe_one; lz2 := fe_zero; lx3 := x1; lz3 := fe_one; lswap := 0 |} in
  let (x2, x3) := fe_cswap (lx2 st) (lx3 st) (lswap st) in
  let (z2, z3) := fe_cswap (lz2 st) (lz3 st) (lswap st) in
  let! z2 := fe_invert b z2 in
  let! x2 := fe_mul b x2 z2 in
  fe_write_bytes b x2.

(** curve25519.rs:11-17 [gen_pk], 24-28 [dh]. *)
Definition x_gen_pk (b : build) (secret_key : list Z) : res (list Z) :=
  scalarmult b secret_key (9 :: repeat 0 31).
Definition x_dh (b : build) (public_key secret_key : list Z) : res (list Z) :=
  scalarmult b secret_key public_key.
