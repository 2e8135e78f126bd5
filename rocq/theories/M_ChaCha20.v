(** Model of src/chacha20.rs. *)
From Verif Require Import Base.

(** chacha20.rs:96-103 [setup_state] and 82-88 [new]: the [ChaCha20] struct is
    its array of 16 words.  [LittleEndian::read_u32_into] reads consecutive
    little-endian words. *)
Definition chacha_new (key nonce : list Z) : res (list Z) :=
  let! _ := assertb (32 =? length key)%nat in
  let! _ := assertb (12 =? length nonce)%nat in
  Ok ([0x61707865; 0x3320646e; 0x79622d32; 0x6b206574]
      ++ map le_decode (chunks 4 key) ++ [0] ++ map le_decode (chunks 4 nonce)).

(** chacha20.rs:128-149 [quarter_round]. *)
Definition quarter_round (s : list Z) (i j k l : nat) : list Z :=
  let a := get s i in
  let b := get s j in
  let c := get s k in
  let d := get s l in
  let a := wadd 32 a b in
  let d := Z.lxor d a in
  let d := rotl 32 d 16 in
  let c := wadd 32 c d in
  let b := Z.lxor b c in
  let b := rotl 32 b 12 in
  let a := wadd 32 a b in
  let d := Z.lxor d a in
  let d := rotl 32 d 8 in
  let c := wadd 32 c d in
  let b := Z.lxor b c in
  let b := rotl 32 b 7 in
  upd (upd (upd (upd s i a) j b) k c) l d.

(** chacha20.rs:117-126 [inner_block]. *)
Definition inner_block (s : list Z) : list Z :=
  let s := quarter_round s 0 4 8 12 in
  let s := quarter_round s 1 5 9 13 in
  let s := quarter_round s 2 6 10 14 in
  let s := quarter_round s 3 7 11 15 in
  let s := quarter_round s 0 5 10 15 in
  let s := quarter_round s 1 6 11 12 in
  let s := quarter_round s 2 7 8 13 in
  quarter_round s 3 4 9 14.

(** chacha20.rs:105-115 [transform_state]. *)
Definition transform_state (self : list Z) (counter : Z) : list Z :=
  let state := upd self 12 counter in
  let state := Nat.iter 10 inner_block state in
  let state := zipwith (wadd 32) state self in
  upd state 12 (wadd 32 (get state 12) counter).

(** chacha20.rs:90-94 [block], 151-155 [serialize_block]. *)
Definition chacha_block (self : list Z) (counter : Z) : list Z :=
  flat_map (le_encode 4) (transform_state self counter).

(** chacha20.rs:12-17 [Stream]. *)
Record stream := { st_chacha : list Z; st_counter : Z; st_block : list Z; st_index : nat }.

(** chacha20.rs:25-34 [Stream::new]. *)
Definition stream_new (key nonce : list Z) : res stream :=
  let! c := chacha_new key nonce in
  Ok {| st_chacha := c; st_counter := 0; st_block := chacha_block c 0; st_index := 0 |}.

(** chacha20.rs:65-74 [Iterator::next]; [self.block[i]] panics when out of
    range, [block_index += 1] is at most 65 and cannot overflow a [u8]. *)
Definition stream_next (b : build) (s : stream) : res (Z * stream) :=
  let! s :=
    if (st_index s =? 64)%nat
    then
      let! c := uchk b 32 (st_counter s + 1) in
      Ok {| st_chacha := st_chacha s; st_counter := c;
            st_block := chacha_block (st_chacha s) c; st_index := 0 |}
    else Ok s in
  let! _ := assertb (st_index s <? length (st_block s))%nat in
  Ok (get (st_block s) (st_index s),
      {| st_chacha := st_chacha s; st_counter := st_counter s;
         st_block := st_block s; st_index := S (st_index s) |}).

(** chacha20.rs:56-58: [output.iter_mut().zip(self.take(input.len()).zip(input))].
    The outer [zip] asks [output] first, so the stream is not advanced once the
    output is exhausted; [take] is exhausted together with [input]. *)
Fixpoint process_loop (b : build) (s : stream) (output input : list Z) : res (list Z * stream) :=
  match output, input with
  | _ :: output', z :: input' =>
      let! (y, s) := stream_next b s in
      let! (rest, s) := process_loop b s output' input' in
      Ok (Z.lxor y z :: rest, s)
  | _, _ => Ok (output, s)
  end.

(** chacha20.rs:54-59 [process]; [encrypt] (41-43) and [decrypt] (50-52) call it. *)
Definition stream_process (b : build) (s : stream) (input output : list Z) : res (list Z * stream) :=
  let! _ := assertb (length input =? length output)%nat in
  process_loop b s output input.
Definition stream_encrypt := stream_process.
Definition stream_decrypt := stream_process.
