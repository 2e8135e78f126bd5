(** Model of src/ghash.rs. *)
From Verif Require Import Base.

(** ghash.rs:11 [R0]. *)
Definition R0 : Z := Z.shiftl 0xe1 120.

(** [(h as i128 >> 127) as u128]: all ones when the top bit is set. *)
Definition sign_mask128 (h : Z) : Z := Z.shiftr (swrap 128 h) 127 mod 2 ^ 128.

(** ghash.rs:76-85: [n] iterations of the multiplication loop on
    ([state], [x], [v]); returns [state]. *)
Fixpoint gf_loop (n : nat) (state x v : Z) : Z :=
  match n with
  | O => state
  | S n' =>
      let h := Z.land x (Z.shiftl 1 127) in
      let m := sign_mask128 h in
      let state := Z.lxor state (Z.land v m) in
      let h := ushl 128 v 127 in
      let m := sign_mask128 h in
      let v := Z.shiftr v 1 in
      let v := Z.lxor v (Z.land R0 m) in
      let x := ushl 128 x 1 in
      gf_loop n' state x v
  end.

(** ghash.rs:70-86 [PolyFunction::process]: [key_block] and [state] are [u128]. *)
Definition gf_process (key_block state : Z) (input : list Z) : Z :=
  gf_loop 128 0 (Z.lxor state (be_decode input)) key_block.

(** ghash.rs:42-52 [GHash::process]. *)
Fixpoint ghash_chunks (key_block state : Z) (cs : list (list Z)) : res Z :=
  match cs with
  | [] => Ok state
  | c :: cs' =>
      let! state :=
        if (length c <? 16)%nat
        then let! buffer := write_slice (repeat 0 16) 0 c in Ok (gf_process key_block state buffer)
        else Ok (gf_process key_block state c) in
      ghash_chunks key_block state cs'
  end.

(** ghash.rs:19-40 [GHash::new], [update], [write_tag]; 62-68 and 88-90
    [PolyFunction::new], [write_value]; 3-9 [ghash]. *)
Definition ghash (b : build) (key data ciphertext : list Z) : res (list Z) :=
  let key_block := be_decode key in
  let data_len := len data mod 2 ^ 64 in
  let! state := ghash_chunks key_block 0 (chunks 16 data) in
  let! ciphertext_len := uchk b 64 (0 + len ciphertext mod 2 ^ 64) in
  let! state := ghash_chunks key_block state (chunks 16 ciphertext) in
  let! dl := uchk b 64 (8 * data_len) in
  let! cl := uchk b 64 (8 * ciphertext_len) in
  let state := gf_process key_block state (be_encode 8 dl ++ be_encode 8 cl) in
  Ok (be_encode 16 state).
