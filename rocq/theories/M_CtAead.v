(** Leakage model of src/chacha20.rs, src/poly1305.rs, src/aes.rs, src/ghash.rs
    and src/gcm.rs.  See M_CtBase.v for the conventions. *)
From Verif Require Import Base M_CtBase M_CtHash M_Aes M_Ghash.

Section Ct.
Context {W : Type} (ops : WordOps W).
Local Notation xor := (w_xor ops).
Local Notation and := (w_and ops).
Local Notation or := (w_or ops).
Local Notation shr := (w_shr ops).
Local Notation lit := (w_lit ops).
Local Notation get := (c_get ops).
Local Notation ushl := (w_ushl ops).

(** * src/chacha20.rs *)

(** chacha20.rs:96-103 [setup_state] and 82-88 [new]. *)
Definition c_chacha_new (key nonce : list W) : M (list W) :=
  let* _ := assertM (32 =? length key)%nat in
  let* _ := assertM (12 =? length nonce)%nat in
  ret ([lit 0x61707865; lit 0x3320646e; lit 0x79622d32; lit 0x6b206574]
      ++ map (w_le_decode ops) (chunks 4 key) ++ [lit 0] ++ map (w_le_decode ops) (chunks 4 nonce)).

(** chacha20.rs:128-149 [quarter_round]. *)
Definition c_quarter_round (s : list W) (i j k l : nat) : list W :=
  let a := get s i in
  let b := get s j in
  let c := get s k in
  let d := get s l in
  let a := w_wadd ops 32 a b in
  let d := xor d a in
  let d := w_rotl ops 32 d 16 in
  let c := w_wadd ops 32 c d in
  let b := xor b c in
  let b := w_rotl ops 32 b 12 in
  let a := w_wadd ops 32 a b in
  let d := xor d a in
  let d := w_rotl ops 32 d 8 in
  let c := w_wadd ops 32 c d in
  let b := xor b c in
  let b := w_rotl ops 32 b 7 in
  upd (upd (upd (upd s i a) j b) k c) l d.

(** chacha20.rs:117-126 [inner_block]. *)
Definition c_inner_block (s : list W) : list W :=
  let s := c_quarter_round s 0 4 8 12 in
  let s := c_quarter_round s 1 5 9 13 in
  let s := c_quarter_round s 2 6 10 14 in
  let s := c_quarter_round s 3 7 11 15 in
  let s := c_quarter_round s 0 5 10 15 in
  let s := c_quarter_round s 1 6 11 12 in
  let s := c_quarter_round s 2 7 8 13 in
  c_quarter_round s 3 4 9 14.

(** chacha20.rs:105-115 [transform_state]; the counter is public. *)
Definition c_transform_state (self : list W) (counter : Z) : list W :=
  let state := upd self 12 (lit counter) in
  let state := Nat.iter 10 c_inner_block state in
  let state := zipwith (w_wadd ops 32) state self in
  upd state 12 (w_wadd ops 32 (get state 12) (lit counter)).

(** chacha20.rs:90-94 [block], 151-155 [serialize_block]. *)
Definition c_chacha_block (self : list W) (counter : Z) : list W :=
  flat_map (w_le_encode ops 4) (c_transform_state self counter).

(** chacha20.rs:12-17 [Stream]: the counter and the index are public. *)
Record c_stream := { cs_chacha : list W; cs_counter : Z; cs_block : list W; cs_index : nat }.

(** chacha20.rs:25-34 [Stream::new]. *)
Definition c_stream_new (key nonce : list W) : M c_stream :=
  let* c := c_chacha_new key nonce in
  ret {| cs_chacha := c; cs_counter := 0; cs_block := c_chacha_block c 0; cs_index := 0 |}.

(** chacha20.rs:65-74 [Iterator::next]. *)
Definition c_stream_next (b : build) (s : c_stream) : M (W * c_stream) :=
  let* s :=
    branch (cs_index s =? 64)%nat
      (let* c := p_uchk b 32 (cs_counter s + 1) in
       ret {| cs_chacha := cs_chacha s; cs_counter := c;
              cs_block := c_chacha_block (cs_chacha s) c; cs_index := 0 |})
      (ret s) in
  let* _ := tick (EIndex (cs_index s)) in
  let* _ := assertM (cs_index s <? length (cs_block s))%nat in
  ret (get (cs_block s) (cs_index s),
       {| cs_chacha := cs_chacha s; cs_counter := cs_counter s;
          cs_block := cs_block s; cs_index := S (cs_index s) |}).

(** chacha20.rs:56-58. *)
Fixpoint c_process_loop (b : build) (s : c_stream) (output input : list W) : M (list W * c_stream) :=
  match output, input with
  | _ :: output', z :: input' =>
      let* _ := tick (EBranch true) in
      let* (y, s) := c_stream_next b s in
      let* (rest, s) := c_process_loop b s output' input' in
      ret (xor y z :: rest, s)
  | _, _ => let* _ := tick (EBranch false) in ret (output, s)
  end.

(** chacha20.rs:54-59 [process], behind [encrypt] and [decrypt]. *)
Definition c_stream_process (b : build) (s : c_stream) (input output : list W) : M (list W * c_stream) :=
  let* _ := assertM (length input =? length output)%nat in
  c_process_loop b s output input.

(** * src/poly1305.rs *)

(** poly1305.rs:140-144 [PolyFunction]. *)
Record c_polyfun := { c_pr : list W; c_ph : list W; c_pconst : list W }.

(** poly1305.rs:229-248 [load_r]. *)
Definition c_load_r (key : list W) : list W :=
  [get key 0; get key 1; get key 2; and (get key 3) (lit 15);
   and (get key 4) (lit 252); get key 5; get key 6; and (get key 7) (lit 15);
   and (get key 8) (lit 252); get key 9; get key 10; and (get key 11) (lit 15);
   and (get key 12) (lit 252); get key 13; get key 14; and (get key 15) (lit 15); lit 0].

(** poly1305.rs:147-155 [PolyFunction::new]. *)
Definition c_poly_new (key : list W) : c_polyfun :=
  {| c_pr := c_load_r key; c_ph := repeat (lit 0) 17; c_pconst := skipn 16 key |}.

(** poly1305.rs:221-225: the loop of [add]. *)
Fixpoint c_add_loop (b : build) (u : W) (h c : list W) : M (list W * W) :=
  match h, c with
  | hj :: h', cj :: c' =>
      let* t := w_uchk ops b 32 (w_add ops hj cj) in
      let* u := w_uchk ops b 32 (w_add ops u t) in
      let* (h', u') := c_add_loop b (shr u 8) h' c' in
      ret (and u (lit 255) :: h', u')
  | _, _ => ret (h, u)
  end.
(** poly1305.rs:219-227 [add]. *)
Definition c_poly_add (b : build) (h c : list W) (last_byte : Z) : M (list W) :=
  let* (h, u) := c_add_loop b (lit 0) h c in
  let* t := w_uchk ops b 32 (w_add ops u (lit last_byte)) in
  let* h16 := w_uchk ops b 32 (w_add ops (get h 16) t) in
  ret (upd h 16 h16).

(** poly1305.rs:175-177 and 178-180: the inner loops of [mulmod]. *)
Fixpoint c_mul_lo (b : build) (r h : list W) (i : nat) (js : list nat) (u : W) : M W :=
  match js with
  | [] => ret u
  | j :: js' =>
      let* _ := tick (EIndex j) in
      let* _ := tick (EIndex (i - j)) in
      let* m := w_uchk ops b 32 (w_mul ops (get h j) (get r (i - j))) in
      let* u := w_uchk ops b 32 (w_add ops u m) in
      c_mul_lo b r h i js' u
  end.
Fixpoint c_mul_hi (b : build) (r h : list W) (i : nat) (js : list nat) (u : W) : M W :=
  match js with
  | [] => ret u
  | j :: js' =>
      let* _ := tick (EIndex j) in
      let* m := w_uchk ops b 32 (w_mul ops (lit 320) (get h j)) in
      let* _ := tick (EIndex (i + 17 - j)) in
      let* m := w_uchk ops b 32 (w_mul ops m (get r (i + 17 - j))) in
      let* u := w_uchk ops b 32 (w_add ops u m) in
      c_mul_hi b r h i js' u
  end.
(** poly1305.rs:173-182. *)
Fixpoint c_mul_rows (b : build) (r h : list W) (is : list nat) : M (list W) :=
  match is with
  | [] => ret []
  | i :: is' =>
      let* u := c_mul_lo b r h i (seq 0 (i + 1)) (lit 0) in
      let* u := c_mul_hi b r h i (seq (i + 1) (17 - (i + 1))) u in
      let* rest := c_mul_rows b r h is' in
      ret (u :: rest)
  end.
(** poly1305.rs:189-193, 197-201. *)
Fixpoint c_squeeze_loop (b : build) (n : nat) (u : W) (h : list W) : M (list W * W) :=
  match n, h with
  | S n', hj :: h' =>
      let* u := w_uchk ops b 32 (w_add ops u hj) in
      let* (h', u') := c_squeeze_loop b n' (shr u 8) h' in
      ret (and u (lit 255) :: h', u')
  | _, _ => ret (h, u)
  end.
(** poly1305.rs:187-203 [squeeze]. *)
Definition c_squeeze (b : build) (h : list W) : M (list W) :=
  let* (h, u) := c_squeeze_loop b 16 (lit 0) h in
  let* u := w_uchk ops b 32 (w_add ops u (get h 16)) in
  let h := upd h 16 (and u (lit 3)) in
  let* u := w_uchk ops b 32 (w_mul ops (lit 5) (shr u 2)) in
  let* (h, u) := c_squeeze_loop b 16 u h in
  let* h16 := w_uchk ops b 32 (w_add ops (get h 16) u) in
  ret (upd h 16 h16).
(** poly1305.rs:171-185 [mulmod]. *)
Definition c_mulmod (b : build) (r h : list W) : M (list W) :=
  let* hr := c_mul_rows b r h (seq 0 17) in
  c_squeeze b hr.
(** poly1305.rs:166-169 [process]. *)
Definition c_poly_process (b : build) (p : c_polyfun) (input : list W) : M c_polyfun :=
  let* h := c_poly_add b (c_ph p) input 1 in
  let* h := c_mulmod b (c_pr p) h in
  ret {| c_pr := c_pr p; c_ph := h; c_pconst := c_pconst p |}.
(** poly1305.rs:205-216 [freeze]: the selection is by a mask. *)
Definition c_freeze (b : build) (h_orig : list W) : M (list W) :=
  let* h := c_poly_add b h_orig (map lit [5; 0; 0; 0; 0; 0; 0; 0; 0; 0; 0; 0; 0; 0; 0; 0]) 252 in
  let negative := w_wneg ops 32 (shr (get h 16) 7) in
  ret (zipwith (fun hj hoj => xor hj (and negative (xor hoj hj))) h h_orig).
(** poly1305.rs:157-163 [write_value]. *)
Definition c_poly_write_value (b : build) (p : c_polyfun) : M (list W) :=
  let* h := c_freeze b (c_ph p) in
  let* h := c_poly_add b h (c_pconst p) 0 in
  ret (map (w_uas ops 8) (firstn 16 h)).
(** poly1305.rs:126-136 [Poly1305::process]. *)
Fixpoint c_poly_chunks (b : build) (p : c_polyfun) (cs : list (list W)) : M c_polyfun :=
  match cs with
  | [] => let* _ := tick (EBranch false) in ret p
  | c :: cs' =>
      let* _ := tick (EBranch true) in
      let* p :=
        branch (length c <? 16)%nat
          (let* buffer := c_write_slice (repeat (lit 0) 16) 0 c in c_poly_process b p buffer)
          (c_poly_process b p c) in
      c_poly_chunks b p cs'
  end.
(** poly1305.rs:89-124 [poly1305]. *)
Definition c_poly1305 (b : build) (key data ciphertext : list W) : M (list W) :=
  let data_len := len data mod 2 ^ 64 in
  let* p := c_poly_chunks b (c_poly_new key) (chunks 16 data) in
  let* ciphertext_len := p_uchk b 64 (0 + len ciphertext mod 2 ^ 64) in
  let* p := c_poly_chunks b p (chunks 16 ciphertext) in
  let* p := c_poly_process b p (map lit (le_encode 8 data_len ++ le_encode 8 ciphertext_len)) in
  c_poly_write_value b p.

(** poly1305.rs:68-72 (= gcm.rs:93-97). *)
Definition c_xor_chunk (block input_chunk output_chunk : list W) : list W :=
  let x := firstn (length output_chunk) (c_xorl ops input_chunk block) in
  x ++ skipn (length x) output_chunk.
(** poly1305.rs:64-73 (= gcm.rs:89-98). *)
Fixpoint c_ctr_loop (b : build) (blk : Z -> list W) (i : Z) (ins outs : list (list W))
  : M (list (list W)) :=
  let* inext := p_uchk b 32 (i + 1) in
  match ins, outs with
  | c :: ins', o :: outs' =>
      let* _ := tick (EBranch true) in
      let* rest := c_ctr_loop b blk inext ins' outs' in
      ret (c_xor_chunk (blk i) c o :: rest)
  | _, _ => let* _ := tick (EBranch false) in ret outs
  end.

(** poly1305.rs:63-74 [process], 76-86 [tag], [poly_key_gen]. *)
Definition c_aead_process (b : build) (cipher input output : list W) : M (list W) :=
  let* outs := c_ctr_loop b (c_chacha_block cipher) 1 (chunks 64 input) (chunks 64 output) in
  ret (concat outs).
Definition c_aead_tag (b : build) (cipher ciphertext data : list W) : M (list W) :=
  let poly_key := firstn 32 (c_chacha_block cipher 0) in
  c_poly1305 b poly_key data ciphertext.

(** poly1305.rs:18-23 [new]. *)
Definition c_ccp_new (key : list W) : M (list W) :=
  let* _ := assertM (32 =? length key)%nat in
  ret key.
(** poly1305.rs:30-35 [encrypt]. *)
Definition c_ccp_encrypt (b : build) (key input nonce data output : list W) : M (list W * list W) :=
  let* _ := assertM (length input =? length output)%nat in
  let* cipher := c_chacha_new key nonce in
  let* output := c_aead_process b cipher input output in
  let* tag := c_aead_tag b cipher output data in
  ret (output, tag).
(** poly1305.rs:42-59 [decrypt]. *)
Definition c_ccp_decrypt (b : build) (key input nonce data tag output : list W) : M (list W * bool) :=
  let* _ := assertM (length output =? length input)%nat in
  let* cipher := c_chacha_new key nonce in
  let* expected_tag := c_aead_tag b cipher input data in
  let* ok := c_verify_eq ops expected_tag tag in
  branch ok
    (let* output := c_aead_process b cipher input output in ret (output, true))
    (ret (output, false)).

(** * src/aes.rs *)

(** [(x as i8 >> 7) as u8]. *)
Definition c_sign_mask8 (x : W) : W := w_uas ops 8 (shr (w_sas ops 8 x) 7).
(** aes.rs:132-135 [xtime]. *)
Definition c_xtime (byte : W) : W :=
  let h := c_sign_mask8 byte in
  xor (ushl 8 byte 1) (and (lit 0x1b) h).
(** aes.rs:161-234: the tower-field arithmetic of the S-box. *)
Definition c_g4_sq (x : W) : W :=
  let a := shr (and x (lit 0x2)) 1 in
  let b := and x (lit 0x1) in
  or (ushl 8 b 1) a.
Definition c_g4_scl_n2 (x : W) : W :=
  let a := shr (and x (lit 0x2)) 1 in
  let b := and x (lit 0x1) in
  let p := xor a b in
  let q := a in
  or (ushl 8 p 1) q.
Definition c_g4_scl_n (x : W) : W :=
  let a := shr (and x (lit 0x2)) 1 in
  let b := and x (lit 0x1) in
  let p := b in
  let q := xor a b in
  or (ushl 8 p 1) q.
Definition c_g4_mul (x y : W) : W :=
  let a := shr (and x (lit 0x2)) 1 in
  let b := and x (lit 0x1) in
  let c := shr (and y (lit 0x2)) 1 in
  let d := and y (lit 0x1) in
  let e := and (xor a b) (xor c d) in
  let p := xor (and a c) e in
  let q := xor (and b d) e in
  or (ushl 8 p 1) q.
Definition c_g16_sq_scl (x : W) : W :=
  let a := shr (and x (lit 0xc)) 2 in
  let b := and x (lit 0x3) in
  let p := c_g4_sq (xor a b) in
  let q := c_g4_scl_n2 (c_g4_sq b) in
  or (ushl 8 p 2) q.
Definition c_g16_mul (x y : W) : W :=
  let a := shr (and x (lit 0xc)) 2 in
  let b := and x (lit 0x3) in
  let c := shr (and y (lit 0xc)) 2 in
  let d := and y (lit 0x3) in
  let e := c_g4_mul (xor a b) (xor c d) in
  let e := c_g4_scl_n e in
  let p := xor (c_g4_mul a c) e in
  let q := xor (c_g4_mul b d) e in
  or (ushl 8 p 2) q.
Definition c_g16_inv (x : W) : W :=
  let a := shr (and x (lit 0xc)) 2 in
  let b := and x (lit 0x3) in
  let c := c_g4_scl_n (c_g4_sq (xor a b)) in
  let d := c_g4_mul a b in
  let e := c_g4_sq (xor c d) in
  let p := c_g4_mul e b in
  let q := c_g4_mul e a in
  or (ushl 8 p 2) q.
Definition c_g256_inv (x : W) : W :=
  let a := shr (and x (lit 0xf0)) 4 in
  let b := and x (lit 0x0f) in
  let c := c_g16_sq_scl (xor a b) in
  let d := c_g16_mul a b in
  let e := c_g16_inv (xor c d) in
  let p := c_g16_mul e b in
  let q := c_g16_mul e a in
  or (ushl 8 p 4) q.
(** aes.rs:149-159 [g256_newbasis]; the basis is a constant of the program. *)
Fixpoint c_newbasis_loop (bs : list Z) (x y : W) : W :=
  match bs with
  | [] => y
  | b_i :: bs' =>
      let h := ushl 8 x 7 in
      let m := c_sign_mask8 h in
      c_newbasis_loop bs' (shr x 1) (xor y (and (lit b_i) m))
  end.
Definition c_g256_newbasis (x : W) (b : list Z) : W := c_newbasis_loop (rev b) x (lit 0).
(** aes.rs:142-147 [s_box]: no table is indexed. *)
Definition c_s_box (n : W) : W :=
  let t := c_g256_newbasis n A2X in
  let t := c_g256_inv t in
  let t := c_g256_newbasis t X2S in
  xor t (lit 0x63).
(** aes.rs:84-94. *)
Definition c_sub_bytes (state : list W) : list W := map c_s_box state.
Definition c_sub_word (word : list W) : list W := map c_s_box word.
(** aes.rs:96-109 [shift_rows]. *)
Definition c_shift_rows (s : list W) : list W :=
  let temp := get s 1 in
  let s := upd s 1 (get s 5) in
  let s := upd s 5 (get s 9) in
  let s := upd s 9 (get s 13) in
  let s := upd s 13 temp in
  let '(x, y) := (get s 2, get s 10) in
  let s := upd (upd s 2 y) 10 x in
  let '(x, y) := (get s 6, get s 14) in
  let s := upd (upd s 6 y) 14 x in
  let temp := get s 15 in
  let s := upd s 15 (get s 11) in
  let s := upd s 11 (get s 7) in
  let s := upd s 7 (get s 3) in
  upd s 3 temp.
(** aes.rs:111-130 [mix_columns]. *)
Definition c_xor_column (a b : list W) : list W :=
  [xor (get a 0) (get b 0); xor (get a 1) (get b 1);
   xor (get a 2) (get b 2); xor (get a 3) (get b 3)].
Definition c_xtime_column (c : list W) : list W :=
  [c_xtime (get c 0); c_xtime (get c 1); c_xtime (get c 2); c_xtime (get c 3)].
Definition c_mix_column (c : list W) : list W :=
  let x2 := c_xtime_column c in
  let x3 := c_xor_column x2 c in
  [xor (xor (xor (get x2 0) (get x3 1)) (get c 2)) (get c 3);
   xor (xor (xor (get x2 1) (get x3 2)) (get c 3)) (get c 0);
   xor (xor (xor (get x2 2) (get x3 3)) (get c 0)) (get c 1);
   xor (xor (xor (get x2 3) (get x3 0)) (get c 1)) (get c 2)].
Definition c_mix_columns (state : list W) : list W := concat (map c_mix_column (chunks 4 state)).

Section Cipher.
Variable NK : nat.
Let NR := (NK + 6)%nat.

(** aes.rs:49-63. *)
Fixpoint c_expansion_loop (n i : nat) (schedule : list W) (rcon : W) : list W :=
  match n with
  | O => schedule
  | S n' =>
      let temp := firstn 4 (skipn (4 * (i - 1)) schedule) in
      let '(temp, rcon) :=
        if (i mod NK =? 0)%nat
        then
          let temp := skipn 1 temp ++ firstn 1 temp in
          let temp := c_sub_word temp in
          (upd temp 0 (xor (get temp 0) rcon), c_xtime rcon)
        else if (6 <? NK)%nat && (i mod NK =? 4)%nat
        then (c_sub_word temp, rcon)
        else (temp, rcon) in
      let wr j s := upd s (4 * i + j) (xor (get s (4 * (i - NK) + j)) (get temp j)) in
      c_expansion_loop n' (S i) (wr 3%nat (wr 2%nat (wr 1%nat (wr 0%nat schedule)))) rcon
  end.
(** aes.rs:44-65 [key_expansion]. *)
Definition c_key_expansion (key : list W) : M (list W) :=
  let* _ := assertM (4 * NK =? length key)%nat in
  let* schedule := c_write_slice (repeat (lit 0) (16 * (NR + 1))) 0 key in
  ret (c_expansion_loop (4 * (NR + 1) - NK) NK schedule (lit 0x01)).
(** aes.rs:67-75. *)
Definition c_round_key (sched : list W) (round : nat) : list W :=
  firstn 16 (skipn (16 * round) sched).
Definition c_add_round_key (sched : list W) (state : list W) (round : nat) : list W :=
  c_xorl ops state (c_round_key sched round).
(** aes.rs:27-32. *)
Definition c_cipher_round (sched : list W) (state : list W) (round : nat) : list W :=
  c_add_round_key sched (c_mix_columns (c_shift_rows (c_sub_bytes state))) round.
(** aes.rs:24-37 [permute]. *)
Definition c_permute (sched input : list W) : list W :=
  let output := c_add_round_key sched input 0 in
  let output := fold_left (c_cipher_round sched) (seq 1 (NR - 1)) output in
  c_add_round_key sched (c_shift_rows (c_sub_bytes output)) NR.
End Cipher.

(** * src/ghash.rs *)

(** [(h as i128 >> 127) as u128]. *)
Definition c_sign_mask128 (h : W) : W := w_uas ops 128 (shr (w_sas ops 128 h) 127).
(** ghash.rs:76-85: the multiplication, by masks. *)
Fixpoint c_gf_loop (n : nat) (state x v : W) : W :=
  match n with
  | O => state
  | S n' =>
      let h := and x (lit (Z.shiftl 1 127)) in
      let m := c_sign_mask128 h in
      let state := xor state (and v m) in
      let h := ushl 128 v 127 in
      let m := c_sign_mask128 h in
      let v := shr v 1 in
      let v := xor v (and (lit R0) m) in
      let x := ushl 128 x 1 in
      c_gf_loop n' state x v
  end.
(** ghash.rs:70-86. *)
Definition c_gf_process (key_block state : W) (input : list W) : W :=
  c_gf_loop 128 (lit 0) (xor state (w_be_decode ops input)) key_block.
(** ghash.rs:42-52. *)
Fixpoint c_ghash_chunks (key_block state : W) (cs : list (list W)) : M W :=
  match cs with
  | [] => let* _ := tick (EBranch false) in ret state
  | c :: cs' =>
      let* _ := tick (EBranch true) in
      let* state :=
        branch (length c <? 16)%nat
          (let* buffer := c_write_slice (repeat (lit 0) 16) 0 c in ret (c_gf_process key_block state buffer))
          (ret (c_gf_process key_block state c)) in
      c_ghash_chunks key_block state cs'
  end.
(** ghash.rs:3-40. *)
Definition c_ghash (b : build) (key data ciphertext : list W) : M (list W) :=
  let key_block := w_be_decode ops key in
  let data_len := len data mod 2 ^ 64 in
  let* state := c_ghash_chunks key_block (lit 0) (chunks 16 data) in
  let* ciphertext_len := p_uchk b 64 (0 + len ciphertext mod 2 ^ 64) in
  let* state := c_ghash_chunks key_block state (chunks 16 ciphertext) in
  let* dl := p_uchk b 64 (8 * data_len) in
  let* cl := p_uchk b 64 (8 * ciphertext_len) in
  let state := c_gf_process key_block state (map lit (be_encode 8 dl ++ be_encode 8 cl)) in
  ret (w_be_encode ops 16 state).

(** * src/gcm.rs *)

(** gcm.rs:127-132 [check_bounds]. *)
Definition c_check_bounds (message ciphertext nonce data : list W) : M unit :=
  let* _ := assertM (12 =? length nonce)%nat in
  let* _ := assertM (length message =? length ciphertext)%nat in
  let* _ := assertM (len message + 32 <? 2 ^ 36) in
  assertM (len data <? 2 ^ 61).
(** gcm.rs:121-125 [counter]. *)
Definition c_counter (nonce : list W) : M (list W) :=
  let* _ := assertM (length nonce =? 12)%nat in
  c_write_slice (repeat (lit 0) 16) 0 nonce.

Section Gcm.
Variable NK : nat.
(** gcm.rs:101-104 [block]. *)
Definition c_gcm_block (k counter : list W) (i : Z) : list W :=
  c_permute NK k (firstn 12 counter ++ map lit (be_encode 4 i)).
(** gcm.rs:88-99 [process]. *)
Definition c_gcm_process (b : build) (k counter input output : list W) : M (list W) :=
  let* outs := c_ctr_loop b (c_gcm_block k counter) 2 (chunks 16 input) (chunks 16 output) in
  ret (concat outs).
(** gcm.rs:106-118 [tag], [ghash]. *)
Definition c_gcm_tag (b : build) (k ciphertext data counter : list W) : M (list W) :=
  let tag := c_gcm_block k counter 1 in
  let key := c_permute NK k (repeat (lit 0) 16) in
  let* hash := c_ghash b key data ciphertext in
  ret (c_xorl ops tag hash).
(** gcm.rs:34-36, 82-86 [new]. *)
Definition c_gcm_new (key : list W) : M (list W) := c_key_expansion NK key.
(** gcm.rs:44-49 [encrypt]. *)
Definition c_gcm_encrypt (b : build) (k input nonce data output : list W) : M (list W * list W) :=
  let* _ := c_check_bounds input output nonce data in
  let* ctr := c_counter nonce in
  let* output := c_gcm_process b k ctr input output in
  let* tag := c_gcm_tag b k output data ctr in
  ret (output, tag).
(** gcm.rs:57-74 [decrypt]. *)
Definition c_gcm_decrypt (b : build) (k input nonce data tag output : list W) : M (list W * bool) :=
  let* _ := c_check_bounds output input nonce data in
  let* ctr := c_counter nonce in
  let* expected_tag := c_gcm_tag b k input data ctr in
  let* ok := c_verify_eq ops expected_tag tag in
  branch ok
    (let* output := c_gcm_process b k ctr input output in ret (output, true))
    (ret (output, false)).
End Gcm.
End Ct.
