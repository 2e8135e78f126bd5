(** Model of src/aes.rs. *)
From Verif Require Import Base.

(** aes.rs:7-13 the trait [BlockCipher], as a record of its items.  [new] may
    panic; [permute] works on 16-byte arrays. *)
Record BlockCipher := {
  bc_state : Type;
  bc_new : list Z -> res bc_state;
  bc_permute : bc_state -> list Z -> list Z }.

(** [(x as i8 >> 7) as u8]: all ones when the top bit of the byte is set. *)
Definition sign_mask8 (x : Z) : Z := Z.shiftr (swrap 8 x) 7 mod 256.

(** aes.rs:132-135 [xtime]. *)
Definition xtime (byte : Z) : Z :=
  let h := sign_mask8 byte in
  Z.lxor (ushl 8 byte 1) (Z.land 0x1b h).

(** aes.rs:139-140 [A2X], [X2S]. *)
Definition A2X : list Z := [0x98; 0xF3; 0xF2; 0x48; 0x09; 0x81; 0xA9; 0xFF].
Definition X2S : list Z := [0x58; 0x2D; 0x9E; 0x0B; 0xDC; 0x04; 0x03; 0x24].

(** aes.rs:230-234 [g4_sq]. *)
Definition g4_sq (x : Z) : Z :=
  let a := Z.shiftr (Z.land x 0x2) 1 in
  let b := Z.land x 0x1 in
  Z.lor (ushl 8 b 1) a.

(** aes.rs:222-228 [g4_scl_n2]. *)
Definition g4_scl_n2 (x : Z) : Z :=
  let a := Z.shiftr (Z.land x 0x2) 1 in
  let b := Z.land x 0x1 in
  let p := Z.lxor a b in
  let q := a in
  Z.lor (ushl 8 p 1) q.

(** aes.rs:214-220 [g4_scl_n]. *)
Definition g4_scl_n (x : Z) : Z :=
  let a := Z.shiftr (Z.land x 0x2) 1 in
  let b := Z.land x 0x1 in
  let p := b in
  let q := Z.lxor a b in
  Z.lor (ushl 8 p 1) q.

(** aes.rs:203-212 [g4_mul]. *)
Definition g4_mul (x y : Z) : Z :=
  let a := Z.shiftr (Z.land x 0x2) 1 in
  let b := Z.land x 0x1 in
  let c := Z.shiftr (Z.land y 0x2) 1 in
  let d := Z.land y 0x1 in
  let e := Z.land (Z.lxor a b) (Z.lxor c d) in
  let p := Z.lxor (Z.land a c) e in
  let q := Z.lxor (Z.land b d) e in
  Z.lor (ushl 8 p 1) q.

(** aes.rs:195-201 [g16_sq_scl]. *)
Definition g16_sq_scl (x : Z) : Z :=
  let a := Z.shiftr (Z.land x 0xc) 2 in
  let b := Z.land x 0x3 in
  let p := g4_sq (Z.lxor a b) in
  let q := g4_scl_n2 (g4_sq b) in
  Z.lor (ushl 8 p 2) q.

(** aes.rs:183-193 [g16_mul]. *)
Definition g16_mul (x y : Z) : Z :=
  let a := Z.shiftr (Z.land x 0xc) 2 in
  let b := Z.land x 0x3 in
  let c := Z.shiftr (Z.land y 0xc) 2 in
  let d := Z.land y 0x3 in
  let e := g4_mul (Z.lxor a b) (Z.lxor c d) in
  let e := g4_scl_n e in
  let p := Z.lxor (g4_mul a c) e in
  let q := Z.lxor (g4_mul b d) e in
  Z.lor (ushl 8 p 2) q.

(** aes.rs:172-181 [g16_inv]. *)
Definition g16_inv (x : Z) : Z :=
  let a := Z.shiftr (Z.land x 0xc) 2 in
  let b := Z.land x 0x3 in
  let c := g4_scl_n (g4_sq (Z.lxor a b)) in
  let d := g4_mul a b in
  let e := g4_sq (Z.lxor c d) in
  let p := g4_mul e b in
  let q := g4_mul e a in
  Z.lor (ushl 8 p 2) q.

(** aes.rs:161-170 [g256_inv]. *)
Definition g256_inv (x : Z) : Z :=
  let a := Z.shiftr (Z.land x 0xf0) 4 in
  let b := Z.land x 0x0f in
  let c := g16_sq_scl (Z.lxor a b) in
  let d := g16_mul a b in
  let e := g16_inv (Z.lxor c d) in
  let p := g16_mul e b in
  let q := g16_mul e a in
  Z.lor (ushl 8 p 4) q.

(** aes.rs:149-159 [g256_newbasis]: the loop over [b.iter().rev()]. *)
Fixpoint newbasis_loop (bs : list Z) (x y : Z) : Z :=
  match bs with
  | [] => y
  | b_i :: bs' =>
      let h := ushl 8 x 7 in
      let m := sign_mask8 h in
      newbasis_loop bs' (Z.shiftr x 1) (Z.lxor y (Z.land b_i m))
  end.
Definition g256_newbasis (x : Z) (b : list Z) : Z := newbasis_loop (rev b) x 0.

(** aes.rs:142-147 [s_box]. *)
Definition s_box (n : Z) : Z :=
  let t := g256_newbasis n A2X in
  let t := g256_inv t in
  let t := g256_newbasis t X2S in
  Z.lxor t 0x63.

(** aes.rs:90-94 [sub_bytes], 84-88 [sub_word]. *)
Definition sub_bytes (state : list Z) : list Z := map s_box state.
Definition sub_word (word : list Z) : list Z := map s_box word.

(** aes.rs:96-109 [shift_rows]: the assignments in order ([state.swap] written
    out; loops over constant ranges unrolled). *)
Definition shift_rows (s : list Z) : list Z :=
  let temp := get s 1 in
  let s := upd s 1 (get s 5) in
  let s := upd s 5 (get s 9) in
  let s := upd s 9 (get s 13) in
  let s := upd s 13 temp in
  let '(x, y) := (get s 2, get s 10) in
  let s := upd (upd s 2 y) 10 x in
  let '(x, y) := (get s 6, get s 14) in
  let s := upd (upd s 6 y) 14 x in
  let temp := get s 15 in
  let s := upd s 15 (get s 11) in
  let s := upd s 11 (get s 7) in
  let s := upd s 7 (get s 3) in
  upd s 3 temp.

(** aes.rs:112-121: the body of the loop of [mix_columns]; 124-130
    [xor_column], [xtime_column]. *)
Definition xor_column (a b : list Z) : list Z :=
  [Z.lxor (get a 0) (get b 0); Z.lxor (get a 1) (get b 1);
   Z.lxor (get a 2) (get b 2); Z.lxor (get a 3) (get b 3)].
Definition xtime_column (c : list Z) : list Z :=
  [xtime (get c 0); xtime (get c 1); xtime (get c 2); xtime (get c 3)].
Definition mix_column (c : list Z) : list Z :=
  let x2 := xtime_column c in
  let x3 := xor_column x2 c in
  [Z.lxor (Z.lxor (Z.lxor (get x2 0) (get x3 1)) (get c 2)) (get c 3);
   Z.lxor (Z.lxor (Z.lxor (get x2 1) (get x3 2)) (get c 3)) (get c 0);
   Z.lxor (Z.lxor (Z.lxor (get x2 2) (get x3 3)) (get c 0)) (get c 1);
   Z.lxor (Z.lxor (Z.lxor (get x2 3) (get x3 0)) (get c 1)) (get c 2)].

(** aes.rs:111-122 [mix_columns]. *)
Definition mix_columns (state : list Z) : list Z := concat (map mix_column (chunks 4 state)).

Section Cipher.
(** aes.rs:41-42: [NK] is the parameter of [impl_cipher!]; [NR = NK + 6]. *)
Variable NK : nat.
Let NR := (NK + 6)%nat.

(** aes.rs:49-63: the loop of [key_expansion].  [n] iterations remain; the
    state is ([schedule], [rcon]). *)
Fixpoint expansion_loop (n i : nat) (schedule : list Z) (rcon : Z) : list Z :=
  match n with
  | O => schedule
  | S n' =>
      let temp := firstn 4 (skipn (4 * (i - 1)) schedule) in
      let '(temp, rcon) :=
        if (i mod NK =? 0)%nat
        then
          let temp := skipn 1 temp ++ firstn 1 temp in
          let temp := sub_word temp in
          (upd temp 0 (Z.lxor (get temp 0) rcon), xtime rcon)
        else if (6 <? NK)%nat && (i mod NK =? 4)%nat
        then (sub_word temp, rcon)
        else (temp, rcon) in
      let wr j s := upd s (4 * i + j) (Z.lxor (get s (4 * (i - NK) + j)) (get temp j)) in
      expansion_loop n' (S i) (wr 3%nat (wr 2%nat (wr 1%nat (wr 0%nat schedule)))) rcon
  end.

(** aes.rs:44-65 [key_expansion]. *)
Definition key_expansion (key : list Z) : res (list Z) :=
  let! _ := assertb (4 * NK =? length key)%nat in
  let! schedule := write_slice (repeat 0 (16 * (NR + 1))) 0 key in
  Ok (expansion_loop (4 * (NR + 1) - NK) NK schedule 0x01).

(** aes.rs:67-75 [add_round_key], [round_key]. *)
Definition round_key (sched : list Z) (round : nat) : list Z :=
  firstn 16 (skipn (16 * round) sched).
Definition add_round_key (sched : list Z) (state : list Z) (round : nat) : list Z :=
  xorl state (round_key sched round).

(** aes.rs:27-32: one iteration of the round loop. *)
Definition cipher_round (sched : list Z) (state : list Z) (round : nat) : list Z :=
  add_round_key sched (mix_columns (shift_rows (sub_bytes state))) round.

(** aes.rs:24-37 [permute]. *)
Definition permute (sched input : list Z) : list Z :=
  let output := add_round_key sched input 0 in
  let output := fold_left (cipher_round sched) (seq 1 (NR - 1)) output in
  add_round_key sched (shift_rows (sub_bytes output)) NR.

(** aes.rs:15-78 [impl_cipher!]. *)
Definition impl_cipher : BlockCipher := {|
  bc_state := list Z;
  bc_new := key_expansion;
  bc_permute := permute |}.

End Cipher.

(** aes.rs:80-82. *)
Definition Aes256 : BlockCipher := impl_cipher 8.
Definition Aes192 : BlockCipher := impl_cipher 6.
Definition Aes128 : BlockCipher := impl_cipher 4.
