(** Model of src/sha2.rs. *)
From Verif Require Import Base.

(** sha2.rs:141-145 [Algorithm]. *)
Record algorithm := { digest_size : nat; block_size : nat; initial_state : list Z }.

(** sha2.rs:147-160 [SHA512]. *)
Definition SHA512 := {| digest_size := 64; block_size := 128; initial_state := [
   0x6a09e667f3bcc908; 0xbb67ae8584caa73b; 0x3c6ef372fe94f82b; 0xa54ff53a5f1d36f1;
   0x510e527fade682d1; 0x9b05688c2b3e6c1f; 0x1f83d9abfb41bd6b; 0x5be0cd19137e2179] |}.

(** sha2.rs:162-175 [SHA384]. *)
Definition SHA384 := {| digest_size := 48; block_size := 128; initial_state := [
   0xcbbb9d5dc1059ed8; 0x629a292a367cd507; 0x9159015a3070dd17; 0x152fecd8f70e5939;
   0x67332667ffc00b31; 0x8eb44a8768581511; 0xdb0c2e0d64f98fa7; 0x47b5481dbefa4fa4] |}.

(** sha2.rs:177-190 [SHA256]. *)
Definition SHA256 := {| digest_size := 32; block_size := 64; initial_state := [
   0x6a09e667; 0xbb67ae85; 0x3c6ef372; 0xa54ff53a;
   0x510e527f; 0x9b05688c; 0x1f83d9ab; 0x5be0cd19] |}.

(** sha2.rs:192-205 [SHA224]. *)
Definition SHA224 := {| digest_size := 28; block_size := 64; initial_state := [
   0xc1059ed8; 0x367cd507; 0x3070dd17; 0xf70e5939;
   0xffc00b31; 0x68581511; 0x64f98fa7; 0xbefa4fa4] |}.

(** sha2.rs:207-288 [K512]. *)
Definition K512 : list Z := [
   0x428a2f98d728ae22; 0x7137449123ef65cd; 0xb5c0fbcfec4d3b2f; 0xe9b5dba58189dbbc;
   0x3956c25bf348b538; 0x59f111f1b605d019; 0x923f82a4af194f9b; 0xab1c5ed5da6d8118;
   0xd807aa98a3030242; 0x12835b0145706fbe; 0x243185be4ee4b28c; 0x550c7dc3d5ffb4e2;
   0x72be5d74f27b896f; 0x80deb1fe3b1696b1; 0x9bdc06a725c71235; 0xc19bf174cf692694;
   0xe49b69c19ef14ad2; 0xefbe4786384f25e3; 0x0fc19dc68b8cd5b5; 0x240ca1cc77ac9c65;
   0x2de92c6f592b0275; 0x4a7484aa6ea6e483; 0x5cb0a9dcbd41fbd4; 0x76f988da831153b5;
   0x983e5152ee66dfab; 0xa831c66d2db43210; 0xb00327c898fb213f; 0xbf597fc7beef0ee4;
   0xc6e00bf33da88fc2; 0xd5a79147930aa725; 0x06ca6351e003826f; 0x142929670a0e6e70;
   0x27b70a8546d22ffc; 0x2e1b21385c26c926; 0x4d2c6dfc5ac42aed; 0x53380d139d95b3df;
   0x650a73548baf63de; 0x766a0abb3c77b2a8; 0x81c2c92e47edaee6; 0x92722c851482353b;
   0xa2bfe8a14cf10364; 0xa81a664bbc423001; 0xc24b8b70d0f89791; 0xc76c51a30654be30;
   0xd192e819d6ef5218; 0xd69906245565a910; 0xf40e35855771202a; 0x106aa07032bbd1b8;
   0x19a4c116b8d2d0c8; 0x1e376c085141ab53; 0x2748774cdf8eeb99; 0x34b0bcb5e19b48a8;
   0x391c0cb3c5c95a63; 0x4ed8aa4ae3418acb; 0x5b9cca4f7763e373; 0x682e6ff3d6b2b8a3;
   0x748f82ee5defb2fc; 0x78a5636f43172f60; 0x84c87814a1f0ab72; 0x8cc702081a6439ec;
   0x90befffa23631e28; 0xa4506cebde82bde9; 0xbef9a3f7b2c67915; 0xc67178f2e372532b;
   0xca273eceea26619c; 0xd186b8c721c0c207; 0xeada7dd6cde0eb1e; 0xf57d4f7fee6ed178;
   0x06f067aa72176fba; 0x0a637dc5a2c898a6; 0x113f9804bef90dae; 0x1b710b35131c471b;
   0x28db77f523047d84; 0x32caab7b40c72493; 0x3c9ebe0a15c9bebc; 0x431d67c49c100d4c;
   0x4cc5d4becb3e42b6; 0x597f299cfc657e2a; 0x5fcb6fab3ad6faec; 0x6c44198c4a475817].

(** sha2.rs:290-355 [K256]. *)
Definition K256 : list Z := [
   0x428a2f98; 0x71374491; 0xb5c0fbcf; 0xe9b5dba5; 0x3956c25b; 0x59f111f1; 0x923f82a4; 0xab1c5ed5;
   0xd807aa98; 0x12835b01; 0x243185be; 0x550c7dc3; 0x72be5d74; 0x80deb1fe; 0x9bdc06a7; 0xc19bf174;
   0xe49b69c1; 0xefbe4786; 0x0fc19dc6; 0x240ca1cc; 0x2de92c6f; 0x4a7484aa; 0x5cb0a9dc; 0x76f988da;
   0x983e5152; 0xa831c66d; 0xb00327c8; 0xbf597fc7; 0xc6e00bf3; 0xd5a79147; 0x06ca6351; 0x14292967;
   0x27b70a85; 0x2e1b2138; 0x4d2c6dfc; 0x53380d13; 0x650a7354; 0x766a0abb; 0x81c2c92e; 0x92722c85;
   0xa2bfe8a1; 0xa81a664b; 0xc24b8b70; 0xc76c51a3; 0xd192e819; 0xd6990624; 0xf40e3585; 0x106aa070;
   0x19a4c116; 0x1e376c08; 0x2748774c; 0x34b0bcb5; 0x391c0cb3; 0x4ed8aa4a; 0x5b9cca4f; 0x682e6ff3;
   0x748f82ee; 0x78a5636f; 0x84c87814; 0x8cc70208; 0x90befffa; 0xa4506ceb; 0xbef9a3f7; 0xc67178f2].

(** sha2.rs:372-385: the parameters of the macro [impl_processor!].
    [w_bits]/[w_bytes]: width of [$word] in bits and [size_of::<$word>()];
    [p_block] = [$block_size]; [p_K] = [$round_constants]; [p_rounds] =
    [$rounds]; rotation amounts [$b0 $b1 $s0 $s1]. *)
Record sha_params := {
  w_bits : Z; w_bytes : nat; p_block : nat; p_K : list Z; p_rounds : nat;
  b0 : Z * Z * Z; b1 : Z * Z * Z; s0 : Z * Z * Z; s1 : Z * Z * Z }.

(** sha2.rs:518-530 [impl_processor!(Processor512, ...)]. *)
Definition P512 := {| w_bits := 64; w_bytes := 8; p_block := 128; p_K := K512; p_rounds := 80;
  b0 := (28, 34, 39); b1 := (14, 18, 41); s0 := (1, 8, 7); s1 := (19, 61, 6) |}.

(** sha2.rs:531-543 [impl_processor!(Processor256, ...)]. *)
Definition P256 := {| w_bits := 32; w_bytes := 4; p_block := 64; p_K := K256; p_rounds := 64;
  b0 := (2, 13, 22); b1 := (6, 11, 25); s0 := (7, 18, 3); s1 := (17, 19, 10) |}.

(** sha2.rs:357-370 [Processor512], [Processor256]. *)
Record processor := { p_state : list Z; p_buffer : list Z; p_offset : nat; p_len : Z }.

Section Processor.
Variable P : sha_params.
Let w := w_bits P.

(** sha2.rs:491-493 [ch]. *)
Definition ch (x y z : Z) : Z := Z.lxor (Z.land x y) (Z.land (unot w x) z).
(** sha2.rs:495-497 [maj]. *)
Definition maj (x y z : Z) : Z := Z.lxor (Z.lxor (Z.land x y) (Z.land x z)) (Z.land y z).
(** sha2.rs:499-501 [bsig0]. *)
Definition bsig0 (x : Z) : Z :=
  let '(i, j, k) := b0 P in Z.lxor (Z.lxor (rotr w x i) (rotr w x j)) (rotr w x k).
(** sha2.rs:503-505 [bsig1]. *)
Definition bsig1 (x : Z) : Z :=
  let '(i, j, k) := b1 P in Z.lxor (Z.lxor (rotr w x i) (rotr w x j)) (rotr w x k).
(** sha2.rs:507-509 [ssig0]. *)
Definition ssig0 (x : Z) : Z :=
  let '(i, j, k) := s0 P in Z.lxor (Z.lxor (rotr w x i) (rotr w x j)) (Z.shiftr x k).
(** sha2.rs:511-513 [ssig1]. *)
Definition ssig1 (x : Z) : Z :=
  let '(i, j, k) := s1 P in Z.lxor (Z.lxor (rotr w x i) (rotr w x j)) (Z.shiftr x k).

(** sha2.rs:430-435: the loop filling [w[16..]]; [ws] holds [w[0..t]] and [n]
    iterations remain. *)
Fixpoint schedule (n t : nat) (ws : list Z) : list Z :=
  match n with
  | O => ws
  | S n' =>
      let wt := wadd w (wadd w (wadd w (ssig1 (get ws (t - 2))) (get ws (t - 7)))
                               (ssig0 (get ws (t - 15)))) (get ws (t - 16)) in
      schedule n' (S t) (ws ++ [wt])
  end.

(** sha2.rs:444-459: one iteration of the round loop on the variables [a..h]. *)
Definition round (v : Z * Z * Z * Z * Z * Z * Z * Z) (kw : Z * Z) :=
  let '(a, b, c, d, e, f, g, h) := v in
  let '(kt, wt) := kw in
  let t1 := wadd w (wadd w (wadd w (wadd w h (bsig1 e)) (ch e f g)) kt) wt in
  let t2 := wadd w (bsig0 a) (maj a b c) in
  (wadd w t1 t2, a, b, c, wadd w d t1, e, f, g).

(** sha2.rs:427-468 [process].  [BigEndian::read_uNN_into] reads consecutive
    big-endian words. *)
Definition process (state : list Z) (input : list Z) : list Z :=
  let ws := schedule (p_rounds P - 16) 16 (map be_decode (chunks (w_bytes P) input)) in
  let g i := get state i in
  let '(a, b, c, d, e, f, gg, h) :=
    fold_left round (combine (p_K P) ws) (g 0%nat, g 1%nat, g 2%nat, g 3%nat, g 4%nat, g 5%nat, g 6%nat, g 7%nat) in
  [wadd w (g 0%nat) a; wadd w (g 1%nat) b; wadd w (g 2%nat) c; wadd w (g 3%nat) d;
   wadd w (g 4%nat) e; wadd w (g 5%nat) f; wadd w (g 6%nat) gg; wadd w (g 7%nat) h].

(** sha2.rs:387-394 [new]. *)
Definition proc_new (alg : algorithm) : processor :=
  {| p_state := initial_state alg; p_buffer := repeat 0 (p_block P); p_offset := 0; p_len := 0 |}.

(** sha2.rs:411-418: the loop over [input[input_offset..].chunks(buffer.len())]. *)
Fixpoint update_loop (cs : list (list Z)) (p : processor) : res processor :=
  match cs with
  | [] => Ok p
  | c :: cs' =>
      if (length c <? length (p_buffer p))%nat
      then let! buf := write_slice (p_buffer p) 0 c in
           update_loop cs' {| p_state := p_state p; p_buffer := buf; p_offset := length c; p_len := p_len p |}
      else update_loop cs' {| p_state := process (p_state p) c; p_buffer := p_buffer p;
                              p_offset := p_offset p; p_len := p_len p |}
  end.

(** sha2.rs:396-419 [update].  [self.buffer.len() - self.offset] is a [usize]
    subtraction; it never underflows on a reachable state (proved), the model
    makes the underflow a panic in both build modes. *)
Definition proc_update (b : build) (p : processor) (input : list Z) : res processor :=
  let! l := uchk b 64 (p_len p + len input) in
  let! _ := assertb (p_offset p <=? length (p_buffer p))%nat in
  let buffer_space := (length (p_buffer p) - p_offset p)%nat in
  if (0 <? p_offset p)%nat
  then
    if (length input <? buffer_space)%nat
    then
      let! buf := write_slice (p_buffer p) (p_offset p) input in
      Ok {| p_state := p_state p; p_buffer := buf; p_offset := p_offset p + length input; p_len := l |}
    else
      let! buf := write_slice (p_buffer p) (p_offset p) (firstn buffer_space input) in
      update_loop (chunks (length buf) (skipn buffer_space input))
        {| p_state := process (p_state p) buf; p_buffer := buf; p_offset := 0; p_len := l |}
  else
    update_loop (chunks (length (p_buffer p)) input)
      {| p_state := p_state p; p_buffer := p_buffer p; p_offset := p_offset p; p_len := l |}.

(** [for byte in buf.iter_mut().take(j).skip(i) { *byte = 0 }]. *)
Definition zero_range (i j : nat) (buf : list Z) : list Z :=
  firstn i buf ++ repeat 0 (Nat.min j (length buf) - i) ++ skipn (Nat.max i j) buf.

(** sha2.rs:470-489 [pad]. *)
Definition pad (b : build) (p : processor) : res processor :=
  let! buf := write_slice (p_buffer p) (p_offset p) [0x80] in
  let off := S (p_offset p) in
  let '(st, buf, off) :=
    if (p_block P - 2 * w_bytes P <? off)%nat
    then let buf := zero_range off (length buf) buf in (process (p_state p) buf, buf, O)
    else (p_state p, buf, off) in
  let buf := zero_range off (p_block P - 8) buf in
  let! bits := uchk b 64 (8 * p_len p) in
  let! buf := write_slice buf (p_block P - 8) (be_encode 8 bits) in
  Ok {| p_state := st; p_buffer := buf; p_offset := off; p_len := p_len p |}.

(** sha2.rs:421-425 [write_digest].  [state[..n]] panics when [n > 8];
    [write_uNN_into] panics when the lengths do not match.  The old contents
    of [output] are all overwritten. *)
Definition proc_write_digest (b : build) (p : processor) (output : list Z) : res (list Z) :=
  let! p := pad b p in
  let st := process (p_state p) (p_buffer p) in
  let n := (length output / w_bytes P)%nat in
  let! _ := assertb (n <=? length st)%nat in
  let! _ := assertb (n * w_bytes P =? length output)%nat in
  Ok (flat_map (be_encode (w_bytes P)) (firstn n st)).

End Processor.

(** sha2.rs:6-17 the trait [HashFunction], as a record of its items. *)
Record HashFunction := {
  hstate : Type;
  DIGEST_SIZE : nat;
  BLOCK_SIZE : nat;
  hdefault : hstate;
  hupdate : build -> hstate -> list Z -> res hstate;
  hwrite_digest : build -> hstate -> list Z -> res (list Z) }.

(** sha2.rs:105-132 [impl_function!]: [write_digest] first asserts the output
    length. *)
Definition impl_function (P : sha_params) (alg : algorithm) : HashFunction := {|
  hstate := processor;
  DIGEST_SIZE := digest_size alg;
  BLOCK_SIZE := block_size alg;
  hdefault := proc_new P alg;
  hupdate := proc_update P;
  hwrite_digest := fun b p output =>
    let! _ := assertb (digest_size alg =? length output)%nat in
    proc_write_digest P b p output |}.

(** sha2.rs:134-137. *)
Definition Sha512 : HashFunction := impl_function P512 SHA512.
Definition Sha384 : HashFunction := impl_function P512 SHA384.
Definition Sha256 : HashFunction := impl_function P256 SHA256.
Definition Sha224 : HashFunction := impl_function P256 SHA224.

(** sha2.rs:139. *)
Definition MAX_DIGEST_SIZE : nat := 64.

(** sha2.rs:75-83 [impl_wrapper!]. *)
Definition hash_wrapper (H : HashFunction) (b : build) (message : list Z) : res (list Z) :=
  let! s := hupdate H b (hdefault H) message in
  hwrite_digest H b s (repeat 0 (DIGEST_SIZE H)).

(** sha2.rs:86-103. *)
Definition sha512 := hash_wrapper Sha512.
Definition sha384 := hash_wrapper Sha384.
Definition sha256 := hash_wrapper Sha256.
Definition sha224 := hash_wrapper Sha224.
