(** Model of src/poly1305.rs. *)
From Verif Require Import Base M_Util M_ChaCha20.

(** poly1305.rs:140-144 [PolyFunction]: [r] has 17 bytes, [h] 17 [u32] limbs,
    the constant term 16 bytes. *)
Record polyfun := { pr : list Z; ph : list Z; pconst : list Z }.

(** poly1305.rs:229-248 [load_r]. *)
Definition load_r (key : list Z) : list Z :=
  [get key 0; get key 1; get key 2; Z.land (get key 3) 15;
   Z.land (get key 4) 252; get key 5; get key 6; Z.land (get key 7) 15;
   Z.land (get key 8) 252; get key 9; get key 10; Z.land (get key 11) 15;
   Z.land (get key 12) 252; get key 13; get key 14; Z.land (get key 15) 15; 0].

(** poly1305.rs:147-155 [PolyFunction::new]. *)
Definition poly_new (key : list Z) : polyfun :=
  {| pr := load_r key; ph := repeat 0 17; pconst := skipn 16 key |}.

(** poly1305.rs:221-225: the loop of [add] over [h.iter_mut().zip(c)]; returns
    the limbs and the final [u]. *)
Fixpoint add_loop (b : build) (u : Z) (h c : list Z) : res (list Z * Z) :=
  match h, c with
  | hj :: h', cj :: c' =>
      let! t := uchk b 32 (hj + cj) in
      let! u := uchk b 32 (u + t) in
      let! (h', u') := add_loop b (Z.shiftr u 8) h' c' in
      Ok (Z.land u 255 :: h', u')
  | _, _ => Ok (h, u)
  end.

(** poly1305.rs:219-227 [add]. *)
Definition poly_add (b : build) (h c : list Z) (last_byte : Z) : res (list Z) :=
  let! (h, u) := add_loop b 0 h c in
  let! t := uchk b 32 (u + last_byte) in
  let! h16 := uchk b 32 (get h 16 + t) in
  Ok (upd h 16 h16).

(** poly1305.rs:175-177 and 178-180: the two inner loops of [mulmod]. *)
Fixpoint mul_lo (b : build) (r h : list Z) (i : nat) (js : list nat) (u : Z) : res Z :=
  match js with
  | [] => Ok u
  | j :: js' =>
      let! m := uchk b 32 (get h j * get r (i - j)) in
      let! u := uchk b 32 (u + m) in
      mul_lo b r h i js' u
  end.
Fixpoint mul_hi (b : build) (r h : list Z) (i : nat) (js : list nat) (u : Z) : res Z :=
  match js with
  | [] => Ok u
  | j :: js' =>
      let! m := uchk b 32 (320 * get h j) in
      let! m := uchk b 32 (m * get r (i + 17 - j)) in
      let! u := uchk b 32 (u + m) in
      mul_hi b r h i js' u
  end.

(** poly1305.rs:173-182: the outer loop of [mulmod]. *)
Fixpoint mul_rows (b : build) (r h : list Z) (is : list nat) : res (list Z) :=
  match is with
  | [] => Ok []
  | i :: is' =>
      let! u := mul_lo b r h i (seq 0 (i + 1)) 0 in
      let! u := mul_hi b r h i (seq (i + 1) (17 - (i + 1))) u in
      let! rest := mul_rows b r h is' in
      Ok (u :: rest)
  end.

(** poly1305.rs:189-193 (= 197-201): [u += h_j; h_j = u & 255; u >>= 8] over the
    first [n] limbs. *)
Fixpoint squeeze_loop (b : build) (n : nat) (u : Z) (h : list Z) : res (list Z * Z) :=
  match n, h with
  | S n', hj :: h' =>
      let! u := uchk b 32 (u + hj) in
      let! (h', u') := squeeze_loop b n' (Z.shiftr u 8) h' in
      Ok (Z.land u 255 :: h', u')
  | _, _ => Ok (h, u)
  end.

(** poly1305.rs:187-203 [squeeze]. *)
Definition squeeze (b : build) (h : list Z) : res (list Z) :=
  let! (h, u) := squeeze_loop b 16 0 h in
  let! u := uchk b 32 (u + get h 16) in
  let h := upd h 16 (Z.land u 3) in
  let! u := uchk b 32 (5 * Z.shiftr u 2) in
  let! (h, u) := squeeze_loop b 16 u h in
  let! h16 := uchk b 32 (get h 16 + u) in
  Ok (upd h 16 h16).

(** poly1305.rs:171-185 [mulmod]. *)
Definition mulmod (b : build) (r h : list Z) : res (list Z) :=
  let! hr := mul_rows b r h (seq 0 17) in
  squeeze b hr.

(** poly1305.rs:166-169 [PolyFunction::process]. *)
Definition poly_process (b : build) (p : polyfun) (input : list Z) : res polyfun :=
  let! h := poly_add b (ph p) input 1 in
  let! h := mulmod b (pr p) h in
  Ok {| pr := pr p; ph := h; pconst := pconst p |}.

(** poly1305.rs:205-216 [freeze]. *)
Definition freeze (b : build) (h_orig : list Z) : res (list Z) :=
  let! h := poly_add b h_orig [5; 0; 0; 0; 0; 0; 0; 0; 0; 0; 0; 0; 0; 0; 0; 0] 252 in
  let negative := (- Z.shiftr (get h 16) 7) mod 2 ^ 32 in
  Ok (zipwith (fun hj hoj => Z.lxor hj (Z.land negative (Z.lxor hoj hj))) h h_orig).

(** poly1305.rs:157-163 [write_value]: the first 16 limbs, [as u8]. *)
Definition poly_write_value (b : build) (p : polyfun) : res (list Z) :=
  let! h := freeze b (ph p) in
  let! h := poly_add b h (pconst p) 0 in
  Ok (map (fun x => x mod 256) (firstn 16 h)).

(** poly1305.rs:126-136 [Poly1305::process]. *)
Fixpoint poly_chunks (b : build) (p : polyfun) (cs : list (list Z)) : res polyfun :=
  match cs with
  | [] => Ok p
  | c :: cs' =>
      let! p :=
        if (length c <? 16)%nat
        then let! buffer := write_slice (repeat 0 16) 0 c in poly_process b p buffer
        else poly_process b p c in
      poly_chunks b p cs'
  end.

(** poly1305.rs:97-124 [Poly1305::new], [update], [write_tag] and 89-95
    [poly1305].  [data_len] and [ciphertext_len] are [u64]. *)
Definition poly1305 (b : build) (key data ciphertext : list Z) : res (list Z) :=
  let data_len := len data mod 2 ^ 64 in
  let! p := poly_chunks b (poly_new key) (chunks 16 data) in
  let! ciphertext_len := uchk b 64 (0 + len ciphertext mod 2 ^ 64) in
  let! p := poly_chunks b p (chunks 16 ciphertext) in
  let! p := poly_process b p (le_encode 8 data_len ++ le_encode 8 ciphertext_len) in
  poly_write_value b p.

(** poly1305.rs:68-72 (= gcm.rs:93-97): the bytes of [output_chunk] reached by
    the zip become [input ^ block], the others keep their value. *)
Definition xor_chunk (block input_chunk output_chunk : list Z) : list Z :=
  let x := firstn (length output_chunk) (xorl input_chunk block) in
  x ++ skipn (length x) output_chunk.

(** poly1305.rs:64-73 (= gcm.rs:89-98): the loop over
    [(n..).zip(input.chunks(k).zip(output.chunks_mut(k)))] with a [u32] range
    whose [next] is called first and computes the successor. *)
Fixpoint ctr_loop (b : build) (blk : Z -> list Z) (i : Z) (ins outs : list (list Z))
  : res (list (list Z)) :=
  let! inext := uchk b 32 (i + 1) in
  match ins, outs with
  | c :: ins', o :: outs' =>
      let! rest := ctr_loop b blk inext ins' outs' in
      Ok (xor_chunk (blk i) c o :: rest)
  | _, _ => Ok outs
  end.

(** poly1305.rs:63-74 [process]. *)
Definition aead_process (b : build) (cipher input output : list Z) : res (list Z) :=
  let! outs := ctr_loop b (chacha_block cipher) 1 (chunks 64 input) (chunks 64 output) in
  Ok (concat outs).

(** poly1305.rs:76-79 [tag], 81-86 [poly_key_gen]. *)
Definition aead_tag (b : build) (cipher ciphertext data : list Z) : res (list Z) :=
  let poly_key := firstn 32 (chacha_block cipher 0) in
  poly1305 b poly_key data ciphertext.

(** poly1305.rs:18-23 [ChaCha20Poly1305::new]. *)
Definition ccp_new (key : list Z) : res (list Z) :=
  let! _ := assertb (32 =? length key)%nat in
  Ok key.

(** poly1305.rs:30-35 [encrypt]; [output] is the buffer before the call; the
    result is the buffer after the call and the tag. *)
Definition ccp_encrypt (b : build) (key input nonce data output : list Z) : res (list Z * list Z) :=
  let! _ := assertb (length input =? length output)%nat in
  let! cipher := chacha_new key nonce in
  let! output := aead_process b cipher input output in
  let! tag := aead_tag b cipher output data in
  Ok (output, tag).

(** poly1305.rs:42-59 [decrypt]. *)
Definition ccp_decrypt (b : build) (key input nonce data tag output : list Z) : res (list Z * bool) :=
  let! _ := assertb (length output =? length input)%nat in
  let! cipher := chacha_new key nonce in
  let! expected_tag := aead_tag b cipher input data in
  let! ok := verify_16 expected_tag tag in
  if ok : bool
  then let! output := aead_process b cipher input output in Ok (output, true)
  else Ok (output, false).
