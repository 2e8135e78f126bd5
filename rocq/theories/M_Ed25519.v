(** Model of src/ed25519.rs: Ed25519 key generation, signing and verification. *)
From Verif Require Import Base M_Slp M_FeProg M_ScProg M_EdConst M_Curve25519 M_Sha2.

(** * Field element helpers, ed25519.rs:98-336 *)

(** ed25519.rs:100-154 [cmov_from]; [b] is a [u32], [b.wrapping_neg() as i32]
    is the mask. *)
Definition fe_cmov (f g : fe) (c : Z) : fe :=
  zipwith Z.lxor f (zipwith (fun u v => Z.land (Z.lxor u v) (cswap_mask c)) f g).

(** ed25519.rs:156-160 [is_negative], 162-166 [is_nonzero] ([ZERO] is line 98). *)
Definition fe_is_negative (b : build) (f : fe) : res Z :=
  let! s := fe_write_bytes b f in
  let! s0 := idx s 0 in
  Ok (Z.land s0 1).
Definition fe_is_nonzero (b : build) (f : fe) : res Z :=
  let! s := fe_write_bytes b f in
  verify_32 b s (repeat 0 32).

(** ed25519.rs:168-172 [assign_neg], 174-178 [neg]. *)
Fixpoint fe_neg (b : build) (f : fe) : res fe :=
  match f with
  | [] => Ok []
  | x :: f' => let! v := schk b 32 (- x) in let! r := fe_neg b f' in Ok (v :: r)
  end.

(** ed25519.rs:180-335 [assign_twice_square]. *)
Definition fe_twice_sq (b : build) (f : fe) : res fe := run b twice_sq_prog f.

(** * Scalars *)

(** [load_3(&s[n..]) >> k], [load_4(&s[n..]) >> k]; the masked forms
    [2097151 & (.. >> k) as i64]. *)
Definition limb3 (s : list Z) (n : nat) (k : Z) : res Z :=
  let! v := load_3_at s n in Ok (Z.land 2097151 (swrap 64 (Z.shiftr v k))).
Definition limb4 (s : list Z) (n : nat) (k : Z) : res Z :=
  let! v := load_4_at s n in Ok (Z.land 2097151 (swrap 64 (Z.shiftr v k))).
Definition limb4_top (s : list Z) (n : nat) (k : Z) : res Z :=
  let! v := load_4_at s n in Ok (swrap 64 (Z.shiftr v k)).

(** ed25519.rs:340-350, 352-362, 364-374 and 873-883: the limbs 0 to 10. *)
Definition limbs_0_10 (s : list Z) : res (list Z) :=
  let! l0 := limb3 s 0 0 in
  let! l1 := limb4 s 2 5 in
  let! l2 := limb3 s 5 2 in
  let! l3 := limb4 s 7 7 in
  let! l4 := limb4 s 10 4 in
  let! l5 := limb3 s 13 1 in
  let! l6 := limb4 s 15 6 in
  let! l7 := limb3 s 18 3 in
  let! l8 := limb3 s 21 0 in
  let! l9 := limb4 s 23 5 in
  let! l10 := limb3 s 26 2 in
  Ok [l0; l1; l2; l3; l4; l5; l6; l7; l8; l9; l10].
(** ed25519.rs:340-351: the twelve limbs of an operand of [sc_muladd]; only the
    first 32 bytes are read. *)
Definition limbs12 (s : list Z) : res (list Z) :=
  let! l := limbs_0_10 s in
  let! l11 := limb4_top s 28 7 in
  Ok (l ++ [l11]).
(** ed25519.rs:873-896: the 24 limbs of the argument of [sc_reduce]. *)
Definition limbs24 (s : list Z) : res (list Z) :=
  let! l := limbs_0_10 s in
  let! l11 := limb4 s 28 7 in
  let! l12 := limb4 s 31 4 in
  let! l13 := limb3 s 34 1 in
  let! l14 := limb4 s 36 6 in
  let! l15 := limb3 s 39 3 in
  let! l16 := limb3 s 42 0 in
  let! l17 := limb4 s 44 5 in
  let! l18 := limb3 s 47 2 in
  let! l19 := limb4 s 49 7 in
  let! l20 := limb4 s 52 4 in
  let! l21 := limb3 s 55 1 in
  let! l22 := limb4 s 57 6 in
  let! l23 := limb4_top s 60 3 in
  Ok (l ++ [l11; l12; l13; l14; l15; l16; l17; l18; l19; l20; l21; l22; l23]).

(** [x << k] on an [i64]. *)
Definition shl64 (x k : Z) : Z := swrap 64 (Z.shiftl x k).

(** ed25519.rs:838-869 and 1171-1202: the 32 stores. *)
Definition sc_bytes (s : list Z) : list Z :=
  let s0 := get s 0 in let s1 := get s 1 in let s2 := get s 2 in let s3 := get s 3 in
  let s4 := get s 4 in let s5 := get s 5 in let s6 := get s 6 in let s7 := get s 7 in
  let s8 := get s 8 in let s9 := get s 9 in let s10 := get s 10 in let s11 := get s 11 in
  [as_u8 s0; as_u8 (Z.shiftr s0 8);
   as_u8 (Z.lor (Z.shiftr s0 16) (shl64 s1 5));
   as_u8 (Z.shiftr s1 3); as_u8 (Z.shiftr s1 11);
   as_u8 (Z.lor (Z.shiftr s1 19) (shl64 s2 2));
   as_u8 (Z.shiftr s2 6);
   as_u8 (Z.lor (Z.shiftr s2 14) (shl64 s3 7));
   as_u8 (Z.shiftr s3 1); as_u8 (Z.shiftr s3 9);
   as_u8 (Z.lor (Z.shiftr s3 17) (shl64 s4 4));
   as_u8 (Z.shiftr s4 4); as_u8 (Z.shiftr s4 12);
   as_u8 (Z.lor (Z.shiftr s4 20) (shl64 s5 1));
   as_u8 (Z.shiftr s5 7);
   as_u8 (Z.lor (Z.shiftr s5 15) (shl64 s6 6));
   as_u8 (Z.shiftr s6 2); as_u8 (Z.shiftr s6 10);
   as_u8 (Z.lor (Z.shiftr s6 18) (shl64 s7 3));
   as_u8 (Z.shiftr s7 5); as_u8 (Z.shiftr s7 13);
   as_u8 s8; as_u8 (Z.shiftr s8 8);
   as_u8 (Z.lor (Z.shiftr s8 16) (shl64 s9 5));
   as_u8 (Z.shiftr s9 3); as_u8 (Z.shiftr s9 11);
   as_u8 (Z.lor (Z.shiftr s9 19) (shl64 s10 2));
   as_u8 (Z.shiftr s10 6);
   as_u8 (Z.lor (Z.shiftr s10 14) (shl64 s11 7));
   as_u8 (Z.shiftr s11 1); as_u8 (Z.shiftr s11 9); as_u8 (Z.shiftr s11 17)].

(** ed25519.rs:338-870 [sc_muladd]: the contents of [s] after the call, for the
    32-byte destination its caller passes. *)
Definition sc_muladd (b : build) (a bb c : list Z) : res (list Z) :=
  let! la := limbs12 a in
  let! lb := limbs12 bb in
  let! lc := limbs12 c in
  let! s := run b sc_muladd_prog (la ++ lb ++ lc) in
  Ok (sc_bytes s).

(** ed25519.rs:872-1203 [sc_reduce]: the 64-byte buffer after the call; its
    upper half is not written. *)
Definition sc_reduce (b : build) (s : list Z) : res (list Z) :=
  let! l := limbs24 s in
  let! r := run b sc_reduce_prog l in
  Ok (sc_bytes r ++ skipn 32 s).

(** * Group elements *)

(** ed25519.rs:1206-1210 [GeP2], 1322-1327 [GeP3], 1433-1438 [GeP1p1], 1441-1445
    [GePrecomp], 1458-1463 [GeCached]. *)
Record GeP2 := mkP2 { p2x : fe; p2y : fe; p2z : fe }.
Record GeP3 := mkP3 { p3x : fe; p3y : fe; p3z : fe; p3t : fe }.
Record GeP1p1 := mkP1 { c1x : fe; c1y : fe; c1z : fe; c1t : fe }.
Record GePrecomp := mkPre { yplusx : fe; yminusx : fe; xy2d : fe }.
Record GeCached := mkCached { cyplusx : fe; cyminusx : fe; cz : fe; ct2d : fe }.

(** ed25519.rs:1212-1220 [GeP2::from]. *)
Definition p3_to_p2 (h : GeP3) : GeP2 := mkP2 (p3x h) (p3y h) (p3z h).
(** ed25519.rs:1312-1318, 1422-1429 [zero]. *)
Definition p2_zero : GeP2 := mkP2 fe_zero fe_one fe_one.
Definition p3_zero : GeP3 := mkP3 fe_zero fe_one fe_one fe_zero.
(** ed25519.rs:1447-1455: from a table entry. *)
Definition precomp_of (e : list (list Z)) : GePrecomp :=
  mkPre (nth 0 e []) (nth 1 e []) (nth 2 e []).

(** ed25519.rs:1465-1488 [ge_add]. *)
Definition ge_add (b : build) (p : GeP3) (q : GeCached) : res GeP1p1 :=
  let! rx := fe_add b (p3y p) (p3x p) in
  let! ry := fe_sub b (p3y p) (p3x p) in
  let! rz := fe_mul b rx (cyplusx q) in
  let! ry := fe_mul b ry (cyminusx q) in
  let! rt := fe_mul b (ct2d q) (p3t p) in
  let! rx := fe_mul b (p3z p) (cz q) in
  let! t0 := fe_add b rx rx in
  let! rx := fe_sub b rz ry in
  let! ry := fe_add b ry rz in
  let! rz := fe_add b t0 rt in
  let! rt := fe_subtract_from b rt t0 in
  Ok (mkP1 rx ry rz rt).
(** ed25519.rs:1674-1697 [ge_sub]. *)
Definition ge_sub (b : build) (p : GeP3) (q : GeCached) : res GeP1p1 :=
  let! rx := fe_add b (p3y p) (p3x p) in
  let! ry := fe_sub b (p3y p) (p3x p) in
  let! rz := fe_mul b rx (cyminusx q) in
  let! ry := fe_mul b ry (cyplusx q) in
  let! rt := fe_mul b (ct2d q) (p3t p) in
  let! rx := fe_mul b (p3z p) (cz q) in
  let! t0 := fe_add b rx rx in
  let! rx := fe_sub b rz ry in
  let! ry := fe_add b ry rz in
  let! rz := fe_sub b t0 rt in
  let! rt := fe_add b rt t0 in
  Ok (mkP1 rx ry rz rt).
(** ed25519.rs:1524-1545 [ge_madd]. *)
Definition ge_madd (b : build) (p : GeP3) (q : GePrecomp) : res GeP1p1 :=
  let! rx := fe_add b (p3y p) (p3x p) in
  let! ry := fe_sub b (p3y p) (p3x p) in
  let! rz := fe_mul b rx (yplusx q) in
  let! ry := fe_mul b ry (yminusx q) in
  let! rt := fe_mul b (xy2d q) (p3t p) in
  let! t0 := fe_add b (p3z p) (p3z p) in
  let! rx := fe_sub b rz ry in
  let! ry := fe_add b ry rz in
  let! rz := fe_add b t0 rt in
  let! rt := fe_subtract_from b rt t0 in
  Ok (mkP1 rx ry rz rt).
(** ed25519.rs:1547-1568 [ge_msub]. *)
Definition ge_msub (b : build) (p : GeP3) (q : GePrecomp) : res GeP1p1 :=
  let! rx := fe_add b (p3y p) (p3x p) in
  let! ry := fe_sub b (p3y p) (p3x p) in
  let! rz := fe_mul b rx (yminusx q) in
  let! ry := fe_mul b ry (yplusx q) in
  let! rt := fe_mul b (xy2d q) (p3t p) in
  let! t0 := fe_add b (p3z p) (p3z p) in
  let! rx := fe_sub b rz ry in
  let! ry := fe_add b ry rz in
  let! rz := fe_sub b t0 rt in
  let! rt := fe_add b rt t0 in
  Ok (mkP1 rx ry rz rt).
(** ed25519.rs:1570-1574 [ge_p1p1_to_p2], 1576-1581 [ge_p1p1_to_p3]. *)
Definition p1p1_to_p2 (b : build) (p : GeP1p1) : res GeP2 :=
  let! x := fe_mul b (c1x p) (c1t p) in
  let! y := fe_mul b (c1y p) (c1z p) in
  let! z := fe_mul b (c1z p) (c1t p) in
  Ok (mkP2 x y z).
Definition p1p1_to_p3 (b : build) (p : GeP1p1) : res GeP3 :=
  let! x := fe_mul b (c1x p) (c1t p) in
  let! y := fe_mul b (c1y p) (c1z p) in
  let! z := fe_mul b (c1z p) (c1t p) in
  let! t := fe_mul b (c1x p) (c1y p) in
  Ok (mkP3 x y z t).
(** ed25519.rs:1583-1602 [ge_p2_dbl], 1604-1607 [ge_p3_dbl]. *)
Definition p2_dbl (b : build) (p : GeP2) : res GeP1p1 :=
  let! rx := fe_sq b (p2x p) in
  let! rz := fe_sq b (p2y p) in
  let! rt := fe_twice_sq b (p2z p) in
  let! ry := fe_add b (p2x p) (p2y p) in
  let! t0 := fe_sq b ry in
  let! ry := fe_add b rz rx in
  let! rz := fe_sub b rz rx in
  let! rx := fe_sub b t0 ry in
  let! rt := fe_sub b rt rz in
  Ok (mkP1 rx ry rz rt).
Definition p3_dbl (b : build) (p : GeP3) : res GeP1p1 := p2_dbl b (p3_to_p2 p).

(** ed25519.rs:1299-1310 [GeP2::to_bytes] and 1609-1617 [ge_p3_tobytes]. *)
Definition ge_bytes (b : build) (X Y Z_ : fe) : res (list Z) :=
  let! recip := fe_invert b Z_ in
  let! x := fe_mul b X recip in
  let! y := fe_mul b Y recip in
  let! s := fe_write_bytes b y in
  let! n := fe_is_negative b x in
  let! s31 := idx s 31 in
  Ok (upd s 31 (Z.lxor s31 (as_u8 (shl32 n 7)))).
Definition p2_to_bytes (b : build) (h : GeP2) : res (list Z) := ge_bytes b (p2x h) (p2y h) (p2z h).
Definition p3_tobytes (b : build) (h : GeP3) : res (list Z) := ge_bytes b (p3x h) (p3y h) (p3z h).

(** ed25519.rs:1619-1624 [ge_p3_to_cached]. *)
Definition p3_to_cached (b : build) (p : GeP3) : res GeCached :=
  let! yp := fe_add b (p3y p) (p3x p) in
  let! ym := fe_sub b (p3y p) (p3x p) in
  let! t2 := fe_mul b (p3t p) D2 in
  Ok (mkCached yp ym (p3z p) t2).
(** ed25519.rs:1626-1630 [ge_precomp_0]. *)
Definition precomp_0 : GePrecomp := mkPre fe_one fe_one fe_zero.

(** ed25519.rs:1632-1640 [equal], 1642-1646 [negative]: the arguments are [i8],
    the results [u8]. *)
Definition equal (x c : Z) : Z :=
  Z.shiftr ((Z.lxor (x mod 256) (c mod 256) - 1) mod 2 ^ 32) 31 mod 256.
Definition negative (x : Z) : Z := Z.shiftr (x mod 2 ^ 64) 63 mod 256.
(** ed25519.rs:1648-1652 [cmov]. *)
Definition cmov (t u : GePrecomp) (c : Z) : GePrecomp :=
  mkPre (fe_cmov (yplusx t) (yplusx u) c) (fe_cmov (yminusx t) (yminusx u) c)
        (fe_cmov (xy2d t) (xy2d u) c).

(** [x << k] on an [i8]. *)
Definition shl8 (x k : Z) : Z := swrap 8 (Z.shiftl x k).

(** ed25519.rs:1654-1672 [select]. *)
Definition select (b : build) (pos : nat) (e : Z) : res GePrecomp :=
  let bnegative := negative e in
  let! babs := schk b 8 (e - shl8 (Z.land (swrap 8 ((- bnegative) mod 256)) e) 1) in
  let! row := match nth_error BASE pos with Some r => Ok r | None => Panic end in
  let t := precomp_0 in
  let t := cmov t (precomp_of (nth 0 row [])) (equal babs 1) in
  let t := cmov t (precomp_of (nth 1 row [])) (equal babs 2) in
  let t := cmov t (precomp_of (nth 2 row [])) (equal babs 3) in
  let t := cmov t (precomp_of (nth 3 row [])) (equal babs 4) in
  let t := cmov t (precomp_of (nth 4 row [])) (equal babs 5) in
  let t := cmov t (precomp_of (nth 5 row [])) (equal babs 6) in
  let t := cmov t (precomp_of (nth 6 row [])) (equal babs 7) in
  let t := cmov t (precomp_of (nth 7 row [])) (equal babs 8) in
  let! nt := fe_neg b (xy2d t) in
  let minust := mkPre (yminusx t) (yplusx t) nt in
  Ok (cmov t minust bnegative).

(** * Multiplication by the base point *)

(** ed25519.rs:1380-1383: the 64 digits, before the carries. *)
Definition nibbles (a : list Z) : list Z :=
  flat_map (fun x => [Z.land (swrap 8 x) 15; Z.land (swrap 8 (Z.shiftr x 4)) 15]) (firstn 32 a).
(** ed25519.rs:1385-1392: the loop over [e[..63]], then [e[63] += carry]. *)
Fixpoint recode (b : build) (carry : Z) (e : list Z) : res (list Z) :=
  match e with
  | [] => Ok []
  | [x] => let! v := schk b 8 (x + carry) in Ok [v]
  | x :: e' =>
      let! v := schk b 8 (x + carry) in
      let! c := schk b 8 (v + 8) in
      let c := Z.shiftr c 4 in
      let! v := schk b 8 (v - shl8 c 4) in
      let! r := recode b c e' in
      Ok (v :: r)
  end.
(** ed25519.rs:1396-1401 and 1413-1418: [n] iterations starting at [i],
    [i += 2] each. *)
Fixpoint base_loop (b : build) (e : list Z) (n i : nat) (h : GeP3) : res GeP3 :=
  match n with
  | O => Ok h
  | S n' =>
      let! d := idx e i in
      let! t := select b (i / 2) d in
      let! r := ge_madd b h t in
      let! h := p1p1_to_p3 b r in
      base_loop b e n' (i + 2) h
  end.
(** ed25519.rs:1374-1420 [from_scalarmult_base]. *)
Definition from_scalarmult_base (b : build) (a : list Z) : res GeP3 :=
  let! e := recode b 0 (nibbles a) in
  let! h := base_loop b e 32 1 p3_zero in
  let! r := p3_dbl b h in
  let! s := p1p1_to_p2 b r in
  let! r := p2_dbl b s in
  let! s := p1p1_to_p2 b r in
  let! r := p2_dbl b s in
  let! s := p1p1_to_p2 b r in
  let! r := p2_dbl b s in
  let! h := p1p1_to_p3 b r in
  base_loop b e 32 0 h.

(** * Double-scalar multiplication *)

(** ed25519.rs:1493-1495: the 256 bits. *)
Definition slide_bits (a : list Z) : res (list Z) :=
  fold_right (fun i acc =>
    let! x := idx a (i / 8) in
    let! r := acc in
    Ok (Z.land 1 (swrap 8 (Z.shiftr x (Z.of_nat (i mod 8)))) :: r)) (Ok []) (seq 0 256).
(** ed25519.rs:1507-1513: [for r_k in r[(i + b)..].iter_mut()]. *)
Fixpoint slide_carry (l : list Z) : list Z :=
  match l with
  | [] => []
  | x :: l' => if x =? 0 then 1 :: l' else 0 :: slide_carry l'
  end.
(** ed25519.rs:1500-1519: the inner [while]; [n] is the number of values of [b]
    left, [b = 7 - n]. *)
Fixpoint slide_inner (bd : build) (i n : nat) (r : list Z) : res (list Z) :=
  match n with
  | O => Ok r
  | S n' =>
      let b := (7 - n)%nat in
      if (i + b <? 256)%nat then
        let x := get r i in
        let y := get r (i + b) in
        if negb (y =? 0) then
          let s := shl8 y (Z.of_nat b) in
          let! u := schk bd 8 (x + s) in
          if u <=? 15 then slide_inner bd i n' (upd (upd r i u) (i + b) 0)
          else
            let! v := schk bd 8 (x - s) in
            if -15 <=? v then
              let r := upd r i v in
              slide_inner bd i n' (firstn (i + b) r ++ slide_carry (skipn (i + b) r))
            else Ok r
        else slide_inner bd i n' r
      else Ok r
  end.
(** ed25519.rs:1497-1521: the outer loop; [n] values of [i] left. *)
Fixpoint slide_outer (bd : build) (n : nat) (r : list Z) : res (list Z) :=
  match n with
  | O => Ok r
  | S n' =>
      let i := (256 - n)%nat in
      let! r := if negb (get r i =? 0) then slide_inner bd i 6 r else Ok r in
      slide_outer bd n' r
  end.
(** ed25519.rs:1490-1522 [slide]. *)
Definition slide (bd : build) (a : list Z) : res (list Z) :=
  let! r := slide_bits a in
  slide_outer bd 256 r.

(** ed25519.rs:1236-1259: [n] more entries of the table [ai], from the cached
    entry [c]. *)
Fixpoint odd_table (b : build) (a2 : GeP3) (c : GeCached) (n : nat) : res (list GeCached) :=
  match n with
  | O => Ok [c]
  | S n' =>
      let! t := ge_add b a2 c in
      let! u := p1p1_to_p3 b t in
      let! c' := p3_to_cached b u in
      let! r := odd_table b a2 c' n' in
      Ok (c :: r)
  end.
Definition tidx {A} (l : list A) (i : nat) : res A :=
  match nth_error l i with Some v => Ok v | None => Panic end.

(** ed25519.rs:1272-1278: the additions for the digit [d] of the first scalar;
    1280-1290: for the digit of the second.  [d as usize / 2] of a positive [i8]. *)
Definition add_digit_a (b : build) (ai : list GeCached) (d : Z) (t : GeP1p1) : res GeP1p1 :=
  if 0 <? d then
    let! u := p1p1_to_p3 b t in
    let! c := tidx ai (Z.to_nat (d / 2)) in
    ge_add b u c
  else if d <? 0 then
    let! u := p1p1_to_p3 b t in
    let! nd := schk b 8 (- d) in
    let! c := tidx ai (Z.to_nat (nd / 2)) in
    ge_sub b u c
  else Ok t.
Definition add_digit_b (b : build) (d : Z) (t : GeP1p1) : res GeP1p1 :=
  if 0 <? d then
    let! u := p1p1_to_p3 b t in
    let! e := tidx BI (Z.to_nat (d / 2)) in
    ge_madd b u (precomp_of e)
  else if d <? 0 then
    let! u := p1p1_to_p3 b t in
    let! nd := schk b 8 (- d) in
    let! e := tidx BI (Z.to_nat (nd / 2)) in
    ge_msub b u (precomp_of e)
  else Ok t.

(** ed25519.rs:1262-1267: the first loop; the number of positions left. *)
Fixpoint skip_zeros (asl bsl : list Z) (n : nat) : nat :=
  match n with
  | O => O
  | S i => if negb (get asl i =? 0) || negb (get bsl i =? 0) then n else skip_zeros asl bsl i
  end.
(** ed25519.rs:1269-1294: the second loop, positions [n - 1] down to 0. *)
Fixpoint double_loop (b : build) (ai : list GeCached) (asl bsl : list Z) (n : nat) (r : GeP2) : res GeP2 :=
  match n with
  | O => Ok r
  | S i =>
      let! t := p2_dbl b r in
      let! t := add_digit_a b ai (get asl i) t in
      let! t := add_digit_b b (get bsl i) t in
      let! r := p1p1_to_p2 b t in
      double_loop b ai asl bsl i r
  end.
(** ed25519.rs:1223-1297 [from_double_scalarmult_vartime]. *)
Definition from_double_scalarmult (b : build) (a : list Z) (ga : GeP3) (bs : list Z) : res GeP2 :=
  let! _ := assertb (32 =? length bs)%nat in
  let! aslide := slide b a in
  let! bslide := slide b bs in
  let! c0 := p3_to_cached b ga in
  let! t := p3_dbl b ga in
  let! a2 := p1p1_to_p3 b t in
  let! ai := odd_table b a2 c0 7 in
  double_loop b ai aslide bslide (skip_zeros aslide bslide 256) p2_zero.

(** ed25519.rs:1330-1372 [from_bytes_negate_vartime]. *)
Definition from_bytes_negate (b : build) (s : list Z) : res (option GeP3) :=
  let! y := fe_from_bytes b s in
  let z := fe_one in
  let! u := fe_sq b y in
  let! v := fe_mul b u D in
  let! u := fe_sub b u z in
  let! v := fe_add b v z in
  let! v3 := fe_sq b v in
  let! v3 := fe_mul b v3 v in
  let! x := fe_sq b v3 in
  let! x := fe_mul b x v in
  let! x := fe_mul b x u in
  let! x := fe_pow22523 b x in
  let! x := fe_mul b x v3 in
  let! x := fe_mul b x u in
  let! vxx := fe_sq b x in
  let! vxx := fe_mul b vxx v in
  let! check := fe_sub b vxx u in
  let! nz := fe_is_nonzero b check in
  let! x' :=
    if negb (nz =? 0) then
      let! check := fe_add b vxx u in
      let! nz := fe_is_nonzero b check in
      if negb (nz =? 0) then Ok None
      else let! x := fe_mul b x SQRTM1 in Ok (Some x)
    else Ok (Some x) in
  match x' with
  | None => Ok None
  | Some x =>
      let! neg := fe_is_negative b x in
      let! s31 := idx s 31 in
      let! x := if neg =? Z.shiftr s31 7 then fe_neg b x else Ok x in
      let! t := fe_mul b x y in
      Ok (Some (mkP3 x y z t))
  end.

(** * Keys and signatures *)

(** ed25519.rs:17-19, 34-36: clamping of the hash of the secret key. *)
Definition clamp_ed (az : list Z) : list Z :=
  let az := upd az 0 (Z.land (get az 0) 248) in
  let az := upd az 31 (Z.land (get az 31) 63) in
  upd az 31 (Z.lor (get az 31) 64).

(** ed25519.rs:13-25 [gen_pk]. *)
Definition ed_gen_pk (b : build) (secret_key : list Z) : res (list Z) :=
  let! _ := assertb (32 =? length secret_key)%nat in
  let! az := sha512 b secret_key in
  let az := clamp_ed az in
  let! a := from_scalarmult_base b az in
  p3_tobytes b a.

(** [Sha512::default()], one [update] per part, [write_digest]. *)
Definition sha512_parts (b : build) (parts : list (list Z)) : res (list Z) :=
  let! h := fold_left (fun h x => let! h := h in hupdate Sha512 b h x) parts (Ok (hdefault Sha512)) in
  hwrite_digest Sha512 b h (repeat 0 (DIGEST_SIZE Sha512)).

(** ed25519.rs:31-64 [sign]. *)
Definition ed_sign (b : build) (message secret_key : list Z) : res (list Z) :=
  let! _ := assertb (32 =? length secret_key)%nat in
  let! az := sha512 b secret_key in
  let az := clamp_ed az in
  let! a := from_scalarmult_base b az in
  let! public_key := p3_tobytes b a in
  let! nonce := sha512_parts b [skipn 32 az; message] in
  let! nonce := sc_reduce b nonce in
  let! signature := write_slice (repeat 0 64) 32 public_key in
  let! r := from_scalarmult_base b nonce in
  let! rb := p3_tobytes b r in
  let! signature := write_slice signature 0 rb in
  let! hram := sha512_parts b [signature; message] in
  let! hram := sc_reduce b hram in
  let! s := sc_muladd b hram az nonce in
  write_slice signature 32 s.

(** ed25519.rs:71-96 [verify]. *)
Definition ed_verify (b : build) (message signature public_key : list Z) : res bool :=
  let! _ := assertb (32 =? length public_key)%nat in
  if negb (length signature =? 64)%nat || negb (Z.land (get signature 63) 224 =? 0) then Ok false
  else
    let! a := from_bytes_negate b public_key in
    match a with
    | None => Ok false
    | Some a =>
        let rcopy := firstn 32 signature in
        let scopy := skipn 32 signature in
        let! h := sha512_parts b [rcopy; public_key; message] in
        let! h := sc_reduce b h in
        let! r := from_double_scalarmult b h a scopy in
        let! rcheck := p2_to_bytes b r in
        let! v := verify_32 b rcheck rcopy in
        Ok (v =? 0)
    end.
