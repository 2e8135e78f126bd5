(** Leakage model of src/curve25519.rs and of key generation and signing in
    src/ed25519.rs.  See M_CtBase.v for the conventions.  [Ed25519::verify]
    handles public values only and is not part of this model. *)
From Verif Require Import Base M_Slp M_FeProg M_ScProg M_EdConst M_Sha2 M_CtBase M_CtHash.

Section Ct.
Context {W : Type} (ops : WordOps W).
Local Notation xor := (w_xor ops).
Local Notation and := (w_and ops).
Local Notation or := (w_or ops).
Local Notation shr := (w_shr ops).
Local Notation lit := (w_lit ops).
Local Notation get := (c_get ops).

(** * Straight-line arithmetic: the programs of M_FeProg.v and M_ScProg.v,
    on secret words. *)
Definition c_env := PositiveMap.t W.
Definition c_lookup (x : positive) (s : c_env) : W :=
  match PositiveMap.find x s with Some v => v | None => lit 0 end.
Fixpoint c_eval (b : build) (s : c_env) (e : expr) : M W :=
  match e with
  | V x => ret (c_lookup x s)
  | C n => ret (lit n)
  | Add w e1 e2 => let* v1 := c_eval b s e1 in let* v2 := c_eval b s e2 in w_schk ops b w (w_add ops v1 v2)
  | Sub w e1 e2 => let* v1 := c_eval b s e1 in let* v2 := c_eval b s e2 in w_schk ops b w (w_sub ops v1 v2)
  | Mul w e1 e2 => let* v1 := c_eval b s e1 in let* v2 := c_eval b s e2 in w_schk ops b w (w_mul ops v1 v2)
  | Shr e1 k => let* v := c_eval b s e1 in ret (shr v k)
  | Shl w e1 k => let* v := c_eval b s e1 in ret (w_sshl ops w v k)
  | As w e1 => let* v := c_eval b s e1 in ret (w_sas ops w v)
  end.
Fixpoint c_exec (b : build) (p : list stmt) (s : c_env) : M c_env :=
  match p with
  | [] => ret s
  | Let x e :: p' => let* v := c_eval b s e in c_exec b p' (PositiveMap.add x v s)
  end.
Fixpoint c_evals (b : build) (s : c_env) (es : list expr) : M (list W) :=
  match es with
  | [] => ret []
  | e :: es' => let* v := c_eval b s e in let* vs := c_evals b s es' in ret (v :: vs)
  end.
Fixpoint c_bind_args (xs : list positive) (vs : list W) : c_env :=
  match xs, vs with
  | x :: xs', v :: vs' => PositiveMap.add x v (c_bind_args xs' vs')
  | _, _ => PositiveMap.empty W
  end.
Definition c_run (b : build) (p : prog) (vs : list W) : M (list W) :=
  let* s := c_exec b (body p) (c_bind_args (params p) vs) in
  c_evals b s (outs p).

(** * src/curve25519.rs *)

(** curve25519.rs:39-52 [load_3], [load_4]. *)
Definition c_load_3 (x : list W) : M W :=
  let* x0 := c_idx x 0 in
  let* x1 := c_idx x 1 in
  let r := or x0 (w_ushl ops 64 x1 8) in
  let* x2 := c_idx x 2 in
  ret (or r (w_ushl ops 64 x2 16)).
Definition c_load_4 (x : list W) : M W :=
  let* x0 := c_idx x 0 in
  let* x1 := c_idx x 1 in
  let r := or x0 (w_ushl ops 64 x1 8) in
  let* x2 := c_idx x 2 in
  let r := or r (w_ushl ops 64 x2 16) in
  let* x3 := c_idx x 3 in
  ret (or r (w_ushl ops 64 x3 24)).
Definition c_load_3_at (s : list W) (n : nat) : M W := let* x := c_from s n in c_load_3 x.
Definition c_load_4_at (s : list W) (n : nat) : M W := let* x := c_from s n in c_load_4 x.

(** curve25519.rs:605-617. *)
Definition c_fe_zero : list W := repeat (lit 0) 10.
Definition c_fe_one : list W := lit 1 :: repeat (lit 0) 9.

(** curve25519.rs:619-623, 886-896, 991-1005, 1019-1033: limb-wise operations. *)
Fixpoint c_limbs2 (b : build) (op : W -> W -> W) (f g : list W) : M (list W) :=
  match f, g with
  | x :: f', y :: g' =>
      let* v := w_schk ops b 32 (op x y) in
      let* r := c_limbs2 b op f' g' in
      ret (v :: r)
  | _, _ => ret []
  end.
Definition c_fe_add (b : build) (f g : list W) : M (list W) := c_limbs2 b (w_add ops) f g.
Definition c_fe_sub (b : build) (f g : list W) : M (list W) := c_limbs2 b (w_sub ops) f g.
Definition c_fe_subtract_from (b : build) (self f : list W) : M (list W) :=
  c_limbs2 b (fun l r => w_sub ops r l) self f.
(** curve25519.rs:758-760, 762-828, 878-884. *)
Definition c_fe_mul (b : build) (f g : list W) : M (list W) := c_run b fe_mul_prog (f ++ g).
Definition c_fe_sq (b : build) (f : list W) : M (list W) := c_run b fe_sq_prog f.
Definition c_fe_mul121666 (b : build) (f : list W) : M (list W) := c_run b mul121666_prog f.

(** curve25519.rs:625-689 [cswap_with]: by a mask. *)
Definition c_cswap_mask (c : W) : W := w_sas ops 32 (w_wneg ops 32 c).
Definition c_fe_cswap (f g : list W) (c : W) : list W * list W :=
  let m := c_cswap_mask c in
  let x := zipwith (fun u v => and (xor u v) m) f g in
  (zipwith xor f x, zipwith xor g x).

(** curve25519.rs:691-746 [assign_from_bytes]. *)
Definition c_fe_from_bytes (b : build) (s : list W) : M (list W) :=
  let* l0 := c_load_4 s in
  let* l1 := c_load_3_at s 4 in
  let* l2 := c_load_3_at s 7 in
  let* l3 := c_load_3_at s 10 in
  let* l4 := c_load_3_at s 13 in
  let* l5 := c_load_4_at s 16 in
  let* l6 := c_load_3_at s 20 in
  let* l7 := c_load_3_at s 23 in
  let* l8 := c_load_3_at s 26 in
  let* l9 := c_load_3_at s 29 in
  let sas := w_sas ops 64 in
  let shl := w_ushl ops 64 in
  c_run b from_bytes_prog
    [sas l0; sas (shl l1 6); sas (shl l2 5); sas (shl l3 3);
     sas (shl l4 2); sas l5; sas (shl l6 7); sas (shl l7 5);
     sas (shl l8 4); sas (shl (and l9 (lit 8388607)) 2)].

(** curve25519.rs:57-63 [square_many!]. *)
Fixpoint c_sq_times (b : build) (n : nat) (f : list W) : M (list W) :=
  match n with
  | O => ret f
  | S n' => let* f := c_fe_sq b f in c_sq_times b n' f
  end.
Definition c_square_many (b : build) (f : list W) (n : nat) : M (list W) := c_sq_times b (n - 1) f.

(** curve25519.rs:65-118 [fe_invert!]. *)
Definition c_fe_invert (b : build) (z : list W) : M (list W) :=
  let* t0 := c_fe_sq b z in
  let* t1 := c_fe_sq b t0 in
  let* t1 := c_fe_sq b t1 in
  let* t1 := c_fe_mul b t1 z in
  let* t0 := c_fe_mul b t0 t1 in
  let* t2 := c_fe_sq b t0 in
  let* t1 := c_fe_mul b t1 t2 in
  let* t2 := c_fe_sq b t1 in
  let* t2 := c_square_many b t2 5 in
  let* t1 := c_fe_mul b t1 t2 in
  let* t2 := c_fe_sq b t1 in
  let* t2 := c_square_many b t2 10 in
  let* t2 := c_fe_mul b t2 t1 in
  let* t3 := c_fe_sq b t2 in
  let* t3 := c_square_many b t3 20 in
  let* t2 := c_fe_mul b t2 t3 in
  let* t2 := c_square_many b t2 11 in
  let* t1 := c_fe_mul b t1 t2 in
  let* t2 := c_fe_sq b t1 in
  let* t2 := c_square_many b t2 50 in
  let* t2 := c_fe_mul b t2 t1 in
  let* t3 := c_fe_sq b t2 in
  let* t3 := c_square_many b t3 100 in
  let* t2 := c_fe_mul b t2 t3 in
  let* t2 := c_square_many b t2 51 in
  let* t1 := c_fe_mul b t1 t2 in
  let* t1 := c_square_many b t1 6 in
  c_fe_mul b t1 t0.

(** curve25519.rs:913-922. *)
Definition c_q_step (b : build) (h q : W) (k : Z) : M W :=
  let* t := w_schk ops b 32 (w_add ops h q) in ret (shr t k).
Definition c_shl32 (x : W) (k : Z) : W := w_sshl ops 32 x k.
Definition c_as_u8 (x : W) : W := w_uas ops 8 x.
(** curve25519.rs:956-987. *)
Definition c_fe_bytes (h : list W) : list W :=
  let h0 := get h 0 in let h1 := get h 1 in let h2 := get h 2 in let h3 := get h 3 in
  let h4 := get h 4 in let h5 := get h 5 in let h6 := get h 6 in let h7 := get h 7 in
  let h8 := get h 8 in let h9 := get h 9 in
  [c_as_u8 h0; c_as_u8 (shr h0 8); c_as_u8 (shr h0 16);
   c_as_u8 (or (shr h0 24) (c_shl32 h1 2));
   c_as_u8 (shr h1 6); c_as_u8 (shr h1 14);
   c_as_u8 (or (shr h1 22) (c_shl32 h2 3));
   c_as_u8 (shr h2 5); c_as_u8 (shr h2 13);
   c_as_u8 (or (shr h2 21) (c_shl32 h3 5));
   c_as_u8 (shr h3 3); c_as_u8 (shr h3 11);
   c_as_u8 (or (shr h3 19) (c_shl32 h4 6));
   c_as_u8 (shr h4 2); c_as_u8 (shr h4 10); c_as_u8 (shr h4 18);
   c_as_u8 h5; c_as_u8 (shr h5 8); c_as_u8 (shr h5 16);
   c_as_u8 (or (shr h5 24) (c_shl32 h6 1));
   c_as_u8 (shr h6 7); c_as_u8 (shr h6 15);
   c_as_u8 (or (shr h6 23) (c_shl32 h7 3));
   c_as_u8 (shr h7 5); c_as_u8 (shr h7 13);
   c_as_u8 (or (shr h7 21) (c_shl32 h8 4));
   c_as_u8 (shr h8 4); c_as_u8 (shr h8 12);
   c_as_u8 (or (shr h8 20) (c_shl32 h9 6));
   c_as_u8 (shr h9 2); c_as_u8 (shr h9 10); c_as_u8 (shr h9 18)].
(** curve25519.rs:898-988 [write_bytes]. *)
Definition c_fe_write_bytes (b : build) (h : list W) : M (list W) :=
  let* t := w_schk ops b 32 (w_mul ops (lit 19) (get h 9)) in
  let* t := w_schk ops b 32 (w_add ops t (lit (2 ^ 24))) in
  let q := shr t 25 in
  let* q := c_q_step b (get h 0) q 26 in
  let* q := c_q_step b (get h 1) q 25 in
  let* q := c_q_step b (get h 2) q 26 in
  let* q := c_q_step b (get h 3) q 25 in
  let* q := c_q_step b (get h 4) q 26 in
  let* q := c_q_step b (get h 5) q 25 in
  let* q := c_q_step b (get h 6) q 26 in
  let* q := c_q_step b (get h 7) q 25 in
  let* q := c_q_step b (get h 8) q 26 in
  let* q := c_q_step b (get h 9) q 25 in
  let* h := c_run b write_bytes_prog (h ++ [q]) in
  ret (c_fe_bytes h).

(** The variables of the ladder. *)
Record c_ladder := { c_lx2 : list W; c_lz2 : list W; c_lx3 : list W; c_lz3 : list W; c_lswap : W }.
(** curve25519.rs:547-588: one iteration; the bit is secret. *)
Definition c_ladder_step (b : build) (x1 : list W) (st : c_ladder) (bit : W) : M c_ladder :=
  let swap := xor (c_lswap st) bit in
  let (x2, x3) := c_fe_cswap (c_lx2 st) (c_lx3 st) swap in
  let (z2, z3) := c_fe_cswap (c_lz2 st) (c_lz3 st) swap in
  let swap := bit in
  let* tmp0 := c_fe_sub b x3 z3 in
  let* tmp1 := c_fe_sub b x2 z2 in
  let* x2 := c_fe_add b x2 z2 in
  let* z2 := c_fe_add b x3 z3 in
  let* z3 := c_fe_mul b tmp0 x2 in
  let* z2 := c_fe_mul b z2 tmp1 in
  let* tmp0 := c_fe_sq b tmp1 in
  let* tmp1 := c_fe_sq b x2 in
  let* x3 := c_fe_add b z3 z2 in
  let* z2 := c_fe_subtract_from b z2 z3 in
  let* x2 := c_fe_mul b tmp1 tmp0 in
  let* tmp1 := c_fe_sub b tmp1 tmp0 in
  let* z2 := c_fe_sq b z2 in
  let* z3 := c_fe_mul121666 b tmp1 in
  let* x3 := c_fe_sq b x3 in
  let* tmp0 := c_fe_add b tmp0 z3 in
  let* z3 := c_fe_mul b x1 z2 in
  let* z2 := c_fe_mul b tmp1 tmp0 in
  ret {| c_lx2 := x2; c_lz2 := z2; c_lx3 := x3; c_lz3 := z3; c_lswap := swap |}.
(** curve25519.rs:546-589: the loop; its length and the indices are constants. *)
Fixpoint c_ladder_loop (b : build) (e x1 : list W) (n : nat) (st : c_ladder) : M c_ladder :=
  match n with
  | O => let* _ := tick (EBranch false) in ret st
  | S pos =>
      let* _ := tick (EBranch true) in
      let* byte := c_idx e (pos / 8) in
      let bit := and (shr byte (Z.of_nat (Nat.land pos 7))) (lit 1) in
      let* st := c_ladder_step b x1 st bit in
      c_ladder_loop b e x1 pos st
  end.
(** curve25519.rs:535-538. *)
Definition c_clamp_x25519 (n : list W) : list W :=
  let e := upd n 0 (and (get n 0) (lit 248)) in
  let e := upd e 31 (and (get e 31) (lit 127)) in
  upd e 31 (or (get e 31) (lit 64)).
(** curve25519.rs:521-596 [scalarmult]. *)
Definition c_scalarmult (b : build) (n p : list W) : M (list W) :=
  let* _ := assertM (32 =? length n)%nat in
  let* _ := assertM (32 =? length p)%nat in
  let e := c_clamp_x25519 n in
  let* x1 := c_fe_from_bytes b p in
  let* st := c_ladder_loop b e x1 255
    {| c_lx2 := c_fe_one; c_lz2 := c_fe_zero; c_lx3 := x1; c_lz3 := c_fe_one; c_lswap := lit 0 |} in
  let (x2, x3) := c_fe_cswap (c_lx2 st) (c_lx3 st) (c_lswap st) in
  let (z2, z3) := c_fe_cswap (c_lz2 st) (c_lz3 st) (c_lswap st) in
  let* z2 := c_fe_invert b z2 in
  let* x2 := c_fe_mul b x2 z2 in
  c_fe_write_bytes b x2.
(** curve25519.rs:11-28 [gen_pk], [dh]. *)
Definition c_x_gen_pk (b : build) (secret_key : list W) : M (list W) :=
  c_scalarmult b secret_key (lit 9 :: repeat (lit 0) 31).
Definition c_x_dh (b : build) (public_key secret_key : list W) : M (list W) :=
  c_scalarmult b secret_key public_key.

(** * src/ed25519.rs *)

(** ed25519.rs:100-154 [cmov_from]. *)
Definition c_fe_cmov (f g : list W) (c : W) : list W :=
  zipwith xor f (zipwith (fun u v => and (xor u v) (c_cswap_mask c)) f g).
(** ed25519.rs:156-160 [is_negative]. *)
Definition c_fe_is_negative (b : build) (f : list W) : M W :=
  let* s := c_fe_write_bytes b f in
  let* s0 := c_idx s 0 in
  ret (and s0 (lit 1)).
(** ed25519.rs:168-178 [neg]. *)
Fixpoint c_fe_neg (b : build) (f : list W) : M (list W) :=
  match f with
  | [] => ret []
  | x :: f' => let* v := w_schk ops b 32 (w_neg ops x) in let* r := c_fe_neg b f' in ret (v :: r)
  end.
(** ed25519.rs:180-335 [assign_twice_square]. *)
Definition c_fe_twice_sq (b : build) (f : list W) : M (list W) := c_run b twice_sq_prog f.

(** Scalar limbs: ed25519.rs:340-374, 873-896. *)
Definition c_limb3 (s : list W) (n : nat) (k : Z) : M W :=
  let* v := c_load_3_at s n in ret (and (lit 2097151) (w_sas ops 64 (shr v k))).
Definition c_limb4 (s : list W) (n : nat) (k : Z) : M W :=
  let* v := c_load_4_at s n in ret (and (lit 2097151) (w_sas ops 64 (shr v k))).
Definition c_limb4_top (s : list W) (n : nat) (k : Z) : M W :=
  let* v := c_load_4_at s n in ret (w_sas ops 64 (shr v k)).
Definition c_limbs_0_10 (s : list W) : M (list W) :=
  let* l0 := c_limb3 s 0 0 in
  let* l1 := c_limb4 s 2 5 in
  let* l2 := c_limb3 s 5 2 in
  let* l3 := c_limb4 s 7 7 in
  let* l4 := c_limb4 s 10 4 in
  let* l5 := c_limb3 s 13 1 in
  let* l6 := c_limb4 s 15 6 in
  let* l7 := c_limb3 s 18 3 in
  let* l8 := c_limb3 s 21 0 in
  let* l9 := c_limb4 s 23 5 in
  let* l10 := c_limb3 s 26 2 in
  ret [l0; l1; l2; l3; l4; l5; l6; l7; l8; l9; l10].
Definition c_limbs12 (s : list W) : M (list W) :=
  let* l := c_limbs_0_10 s in
  let* l11 := c_limb4_top s 28 7 in
  ret (l ++ [l11]).
Definition c_limbs24 (s : list W) : M (list W) :=
  let* l := c_limbs_0_10 s in
  let* l11 := c_limb4 s 28 7 in
  let* l12 := c_limb4 s 31 4 in
  let* l13 := c_limb3 s 34 1 in
  let* l14 := c_limb4 s 36 6 in
  let* l15 := c_limb3 s 39 3 in
  let* l16 := c_limb3 s 42 0 in
  let* l17 := c_limb4 s 44 5 in
  let* l18 := c_limb3 s 47 2 in
  let* l19 := c_limb4 s 49 7 in
  let* l20 := c_limb4 s 52 4 in
  let* l21 := c_limb3 s 55 1 in
  let* l22 := c_limb4 s 57 6 in
  let* l23 := c_limb4_top s 60 3 in
  ret (l ++ [l11; l12; l13; l14; l15; l16; l17; l18; l19; l20; l21; l22; l23]).
Definition c_shl64 (x : W) (k : Z) : W := w_sshl ops 64 x k.
(** ed25519.rs:838-869 and 1171-1202. *)
Definition c_sc_bytes (s : list W) : list W :=
  let s0 := get s 0 in let s1 := get s 1 in let s2 := get s 2 in let s3 := get s 3 in
  let s4 := get s 4 in let s5 := get s 5 in let s6 := get s 6 in let s7 := get s 7 in
  let s8 := get s 8 in let s9 := get s 9 in let s10 := get s 10 in let s11 := get s 11 in
  [c_as_u8 s0; c_as_u8 (shr s0 8);
   c_as_u8 (or (shr s0 16) (c_shl64 s1 5));
   c_as_u8 (shr s1 3); c_as_u8 (shr s1 11);
   c_as_u8 (or (shr s1 19) (c_shl64 s2 2));
   c_as_u8 (shr s2 6);
   c_as_u8 (or (shr s2 14) (c_shl64 s3 7));
   c_as_u8 (shr s3 1); c_as_u8 (shr s3 9);
   c_as_u8 (or (shr s3 17) (c_shl64 s4 4));
   c_as_u8 (shr s4 4); c_as_u8 (shr s4 12);
   c_as_u8 (or (shr s4 20) (c_shl64 s5 1));
   c_as_u8 (shr s5 7);
   c_as_u8 (or (shr s5 15) (c_shl64 s6 6));
   c_as_u8 (shr s6 2); c_as_u8 (shr s6 10);
   c_as_u8 (or (shr s6 18) (c_shl64 s7 3));
   c_as_u8 (shr s7 5); c_as_u8 (shr s7 13);
   c_as_u8 s8; c_as_u8 (shr s8 8);
   c_as_u8 (or (shr s8 16) (c_shl64 s9 5));
   c_as_u8 (shr s9 3); c_as_u8 (shr s9 11);
   c_as_u8 (or (shr s9 19) (c_shl64 s10 2));
   c_as_u8 (shr s10 6);
   c_as_u8 (or (shr s10 14) (c_shl64 s11 7));
   c_as_u8 (shr s11 1); c_as_u8 (shr s11 9); c_as_u8 (shr s11 17)].
(** ed25519.rs:338-870 [sc_muladd], 872-1203 [sc_reduce]. *)
Definition c_sc_muladd (b : build) (a bb c : list W) : M (list W) :=
  let* la := c_limbs12 a in
  let* lb := c_limbs12 bb in
  let* lc := c_limbs12 c in
  let* s := c_run b sc_muladd_prog (la ++ lb ++ lc) in
  ret (c_sc_bytes s).
Definition c_sc_reduce (b : build) (s : list W) : M (list W) :=
  let* l := c_limbs24 s in
  let* r := c_run b sc_reduce_prog l in
  ret (c_sc_bytes r ++ skipn 32 s).

(** ed25519.rs:1206-1463: group elements. *)
Record c_GeP2 := c_mkP2 { c_p2x : list W; c_p2y : list W; c_p2z : list W }.
Record c_GeP3 := c_mkP3 { c_p3x : list W; c_p3y : list W; c_p3z : list W; c_p3t : list W }.
Record c_GeP1p1 := c_mkP1 { c_c1x : list W; c_c1y : list W; c_c1z : list W; c_c1t : list W }.
Record c_GePrecomp := c_mkPre { c_yplusx : list W; c_yminusx : list W; c_xy2d : list W }.
Definition c_p3_to_p2 (h : c_GeP3) : c_GeP2 := c_mkP2 (c_p3x h) (c_p3y h) (c_p3z h).
Definition c_p3_zero : c_GeP3 := c_mkP3 c_fe_zero c_fe_one c_fe_one c_fe_zero.
Definition c_precomp_of (e : list (list Z)) : c_GePrecomp :=
  c_mkPre (map lit (nth 0 e [])) (map lit (nth 1 e [])) (map lit (nth 2 e [])).
(** ed25519.rs:1524-1545 [ge_madd]. *)
Definition c_ge_madd (b : build) (p : c_GeP3) (q : c_GePrecomp) : M c_GeP1p1 :=
  let* rx := c_fe_add b (c_p3y p) (c_p3x p) in
  let* ry := c_fe_sub b (c_p3y p) (c_p3x p) in
  let* rz := c_fe_mul b rx (c_yplusx q) in
  let* ry := c_fe_mul b ry (c_yminusx q) in
  let* rt := c_fe_mul b (c_xy2d q) (c_p3t p) in
  let* t0 := c_fe_add b (c_p3z p) (c_p3z p) in
  let* rx := c_fe_sub b rz ry in
  let* ry := c_fe_add b ry rz in
  let* rz := c_fe_add b t0 rt in
  let* rt := c_fe_subtract_from b rt t0 in
  ret (c_mkP1 rx ry rz rt).
(** ed25519.rs:1570-1581. *)
Definition c_p1p1_to_p2 (b : build) (p : c_GeP1p1) : M c_GeP2 :=
  let* x := c_fe_mul b (c_c1x p) (c_c1t p) in
  let* y := c_fe_mul b (c_c1y p) (c_c1z p) in
  let* z := c_fe_mul b (c_c1z p) (c_c1t p) in
  ret (c_mkP2 x y z).
Definition c_p1p1_to_p3 (b : build) (p : c_GeP1p1) : M c_GeP3 :=
  let* x := c_fe_mul b (c_c1x p) (c_c1t p) in
  let* y := c_fe_mul b (c_c1y p) (c_c1z p) in
  let* z := c_fe_mul b (c_c1z p) (c_c1t p) in
  let* t := c_fe_mul b (c_c1x p) (c_c1y p) in
  ret (c_mkP3 x y z t).
(** ed25519.rs:1583-1607. *)
Definition c_p2_dbl (b : build) (p : c_GeP2) : M c_GeP1p1 :=
  let* rx := c_fe_sq b (c_p2x p) in
  let* rz := c_fe_sq b (c_p2y p) in
  let* rt := c_fe_twice_sq b (c_p2z p) in
  let* ry := c_fe_add b (c_p2x p) (c_p2y p) in
  let* t0 := c_fe_sq b ry in
  let* ry := c_fe_add b rz rx in
  let* rz := c_fe_sub b rz rx in
  let* rx := c_fe_sub b t0 ry in
  let* rt := c_fe_sub b rt rz in
  ret (c_mkP1 rx ry rz rt).
Definition c_p3_dbl (b : build) (p : c_GeP3) : M c_GeP1p1 := c_p2_dbl b (c_p3_to_p2 p).
(** ed25519.rs:1609-1617 [ge_p3_tobytes]. *)
Definition c_p3_tobytes (b : build) (h : c_GeP3) : M (list W) :=
  let* recip := c_fe_invert b (c_p3z h) in
  let* x := c_fe_mul b (c_p3x h) recip in
  let* y := c_fe_mul b (c_p3y h) recip in
  let* s := c_fe_write_bytes b y in
  let* n := c_fe_is_negative b x in
  let* s31 := c_idx s 31 in
  ret (upd s 31 (xor s31 (c_as_u8 (c_shl32 n 7)))).
(** ed25519.rs:1626-1652. *)
Definition c_precomp_0 : c_GePrecomp := c_mkPre c_fe_one c_fe_one c_fe_zero.
Definition c_equal (x : W) (c : Z) : W :=
  w_uas ops 8 (shr (w_wsub ops 32 (xor (w_uas ops 8 x) (w_uas ops 8 (lit c))) (lit 1)) 31).
Definition c_negative (x : W) : W := w_uas ops 8 (shr (w_uas ops 64 x) 63).
Definition c_cmov (t u : c_GePrecomp) (c : W) : c_GePrecomp :=
  c_mkPre (c_fe_cmov (c_yplusx t) (c_yplusx u) c) (c_fe_cmov (c_yminusx t) (c_yminusx u) c)
          (c_fe_cmov (c_xy2d t) (c_xy2d u) c).
Definition c_shl8 (x : W) (k : Z) : W := w_sshl ops 8 x k.
(** ed25519.rs:1654-1672 [select]: the row is public, all its entries are read,
    the digit only enters masks. *)
Definition c_select (b : build) (pos : nat) (e : W) : M c_GePrecomp :=
  let bnegative := c_negative e in
  let* babs := w_schk ops b 8 (w_sub ops e (c_shl8 (and (w_sas ops 8 (w_wneg ops 8 bnegative)) e) 1)) in
  let* row := c_idx BASE pos in
  let t := c_precomp_0 in
  let t := c_cmov t (c_precomp_of (nth 0 row [])) (c_equal babs 1) in
  let t := c_cmov t (c_precomp_of (nth 1 row [])) (c_equal babs 2) in
  let t := c_cmov t (c_precomp_of (nth 2 row [])) (c_equal babs 3) in
  let t := c_cmov t (c_precomp_of (nth 3 row [])) (c_equal babs 4) in
  let t := c_cmov t (c_precomp_of (nth 4 row [])) (c_equal babs 5) in
  let t := c_cmov t (c_precomp_of (nth 5 row [])) (c_equal babs 6) in
  let t := c_cmov t (c_precomp_of (nth 6 row [])) (c_equal babs 7) in
  let t := c_cmov t (c_precomp_of (nth 7 row [])) (c_equal babs 8) in
  let* nt := c_fe_neg b (c_xy2d t) in
  let minust := c_mkPre (c_yminusx t) (c_yplusx t) nt in
  ret (c_cmov t minust bnegative).
(** ed25519.rs:1380-1392: the signed digits. *)
Definition c_nibbles (a : list W) : list W :=
  flat_map (fun x => [and (w_sas ops 8 x) (lit 15); and (w_sas ops 8 (shr x 4)) (lit 15)]) (firstn 32 a).
Fixpoint c_recode (b : build) (carry : W) (e : list W) : M (list W) :=
  match e with
  | [] => ret []
  | [x] => let* v := w_schk ops b 8 (w_add ops x carry) in ret [v]
  | x :: e' =>
      let* v := w_schk ops b 8 (w_add ops x carry) in
      let* c := w_schk ops b 8 (w_add ops v (lit 8)) in
      let c := shr c 4 in
      let* v := w_schk ops b 8 (w_sub ops v (c_shl8 c 4)) in
      let* r := c_recode b c e' in
      ret (v :: r)
  end.
(** ed25519.rs:1396-1401 and 1413-1418. *)
Fixpoint c_base_loop (b : build) (e : list W) (n i : nat) (h : c_GeP3) : M c_GeP3 :=
  match n with
  | O => let* _ := tick (EBranch false) in ret h
  | S n' =>
      let* _ := tick (EBranch true) in
      let* d := c_idx e i in
      let* t := c_select b (i / 2) d in
      let* r := c_ge_madd b h t in
      let* h := c_p1p1_to_p3 b r in
      c_base_loop b e n' (i + 2) h
  end.
(** ed25519.rs:1374-1420 [from_scalarmult_base]. *)
Definition c_from_scalarmult_base (b : build) (a : list W) : M c_GeP3 :=
  let* e := c_recode b (lit 0) (c_nibbles a) in
  let* h := c_base_loop b e 32 1 c_p3_zero in
  let* r := c_p3_dbl b h in
  let* s := c_p1p1_to_p2 b r in
  let* r := c_p2_dbl b s in
  let* s := c_p1p1_to_p2 b r in
  let* r := c_p2_dbl b s in
  let* s := c_p1p1_to_p2 b r in
  let* r := c_p2_dbl b s in
  let* h := c_p1p1_to_p3 b r in
  c_base_loop b e 32 0 h.
(** ed25519.rs:17-19, 34-36. *)
Definition c_clamp_ed (az : list W) : list W :=
  let az := upd az 0 (and (get az 0) (lit 248)) in
  let az := upd az 31 (and (get az 31) (lit 63)) in
  upd az 31 (or (get az 31) (lit 64)).
(** ed25519.rs:13-25 [gen_pk]. *)
Definition c_ed_gen_pk (b : build) (secret_key : list W) : M (list W) :=
  let* _ := assertM (32 =? length secret_key)%nat in
  let* az := c_hash_wrapper ops P512 SHA512 b secret_key in
  let az := c_clamp_ed az in
  let* a := c_from_scalarmult_base b az in
  c_p3_tobytes b a.
(** [Sha512::default()], one [update] per part, [write_digest]. *)
Definition c_sha512_parts (b : build) (parts : list (list W)) : M (list W) :=
  let* h := c_updates ops P512 b (c_hdefault ops P512 SHA512) parts in
  c_hwrite_digest ops P512 SHA512 b h (repeat (lit 0) (digest_size SHA512)).
(** ed25519.rs:31-64 [sign]. *)
Definition c_ed_sign (b : build) (message secret_key : list W) : M (list W) :=
  let* _ := assertM (32 =? length secret_key)%nat in
  let* az := c_hash_wrapper ops P512 SHA512 b secret_key in
  let az := c_clamp_ed az in
  let* a := c_from_scalarmult_base b az in
  let* public_key := c_p3_tobytes b a in
  let* nonce := c_sha512_parts b [skipn 32 az; message] in
  let* nonce := c_sc_reduce b nonce in
  let* signature := c_write_slice (repeat (lit 0) 64) 32 public_key in
  let* r := c_from_scalarmult_base b nonce in
  let* rb := c_p3_tobytes b r in
  let* signature := c_write_slice signature 0 rb in
  let* hram := c_sha512_parts b [signature; message] in
  let* hram := c_sc_reduce b hram in
  let* s := c_sc_muladd b hram az nonce in
  c_write_slice signature 32 s.
End Ct.
