(** Leakage model of src/util.rs, src/sha2.rs, src/hmac.rs and src/hkdf.rs.
    See M_CtBase.v for the conventions; the citations are those of M_Util.v,
    M_Sha2.v, M_Hmac.v and M_Hkdf.v. *)
From Verif Require Import Base M_Sha2 M_CtBase.

Section Ct.
Context {W : Type} (ops : WordOps W).
Local Notation xor := (w_xor ops).
Local Notation and := (w_and ops).
Local Notation get := (c_get ops).

(** util.rs:9-13 [verify_inner]. *)
Definition c_verify_inner (x y : list W) : M W :=
  let* _ := assertM (length x =? length y)%nat in
  ret (fold_left (fun acc xy => w_or ops acc (xor (fst xy) (snd xy))) (combine x y) (w_lit ops 0)).
(** util.rs:4-6 [verify_16], and the comparison of hmac.rs:121. *)
Definition c_verify_eq (x y : list W) : M bool :=
  branch (length x =? length y)%nat
    (let* d := c_verify_inner x y in w_is_zero ops d)
    (ret false).

(** sha2.rs:357-370: the state and the buffer are secret, the offset and the
    length are public. *)
Record c_processor := { cp_state : list W; cp_buffer : list W; cp_offset : nat; cp_len : Z }.

Section Processor.
Variable P : sha_params.
Let w := w_bits P.
Local Notation wadd := (w_wadd ops w).
Local Notation rotr := (w_rotr ops w).
Local Notation shr := (w_shr ops).

(** sha2.rs:491-513 [ch], [maj], [bsig0], [bsig1], [ssig0], [ssig1]. *)
Definition c_ch (x y z : W) : W := xor (and x y) (and (w_not ops w x) z).
Definition c_maj (x y z : W) : W := xor (xor (and x y) (and x z)) (and y z).
Definition c_bsig0 (x : W) : W :=
  let '(i, j, k) := b0 P in xor (xor (rotr x i) (rotr x j)) (rotr x k).
Definition c_bsig1 (x : W) : W :=
  let '(i, j, k) := b1 P in xor (xor (rotr x i) (rotr x j)) (rotr x k).
Definition c_ssig0 (x : W) : W :=
  let '(i, j, k) := s0 P in xor (xor (rotr x i) (rotr x j)) (shr x k).
Definition c_ssig1 (x : W) : W :=
  let '(i, j, k) := s1 P in xor (xor (rotr x i) (rotr x j)) (shr x k).

(** sha2.rs:430-435: the message schedule. *)
Fixpoint c_schedule (n t : nat) (ws : list W) : list W :=
  match n with
  | O => ws
  | S n' =>
      let wt := wadd (wadd (wadd (c_ssig1 (get ws (t - 2))) (get ws (t - 7)))
                           (c_ssig0 (get ws (t - 15)))) (get ws (t - 16)) in
      c_schedule n' (S t) (ws ++ [wt])
  end.

(** sha2.rs:444-459: one round. *)
Definition c_round (v : W * W * W * W * W * W * W * W) (kw : Z * W) :=
  let '(a, b, c, d, e, f, g, h) := v in
  let '(kt, wt) := kw in
  let t1 := wadd (wadd (wadd (wadd h (c_bsig1 e)) (c_ch e f g)) (w_lit ops kt)) wt in
  let t2 := wadd (c_bsig0 a) (c_maj a b c) in
  (wadd t1 t2, a, b, c, wadd d t1, e, f, g).

(** sha2.rs:427-468 [process]: straight-line code, the same for every block. *)
Definition c_process (state : list W) (input : list W) : list W :=
  let ws := c_schedule (p_rounds P - 16) 16 (map (w_be_decode ops) (chunks (w_bytes P) input)) in
  let g i := get state i in
  let '(a, b, c, d, e, f, gg, h) :=
    fold_left c_round (combine (p_K P) ws) (g 0%nat, g 1%nat, g 2%nat, g 3%nat, g 4%nat, g 5%nat, g 6%nat, g 7%nat) in
  [wadd (g 0%nat) a; wadd (g 1%nat) b; wadd (g 2%nat) c; wadd (g 3%nat) d;
   wadd (g 4%nat) e; wadd (g 5%nat) f; wadd (g 6%nat) gg; wadd (g 7%nat) h].

(** sha2.rs:387-394 [new]. *)
Definition c_proc_new (alg : algorithm) : c_processor :=
  {| cp_state := map (w_lit ops) (initial_state alg); cp_buffer := repeat (w_lit ops 0) (p_block P);
     cp_offset := 0; cp_len := 0 |}.

(** sha2.rs:411-418: the loop over the chunks. *)
Fixpoint c_update_loop (cs : list (list W)) (p : c_processor) : M c_processor :=
  match cs with
  | [] => let* _ := tick (EBranch false) in ret p
  | c :: cs' =>
      let* _ := tick (EBranch true) in
      branch (length c <? length (cp_buffer p))%nat
        (let* buf := c_write_slice (cp_buffer p) 0 c in
         c_update_loop cs' {| cp_state := cp_state p; cp_buffer := buf; cp_offset := length c; cp_len := cp_len p |})
        (c_update_loop cs' {| cp_state := c_process (cp_state p) c; cp_buffer := cp_buffer p;
                              cp_offset := cp_offset p; cp_len := cp_len p |})
  end.

(** sha2.rs:396-419 [update]. *)
Definition c_proc_update (b : build) (p : c_processor) (input : list W) : M c_processor :=
  let* l := p_uchk b 64 (cp_len p + len input) in
  let* _ := assertM (cp_offset p <=? length (cp_buffer p))%nat in
  let buffer_space := (length (cp_buffer p) - cp_offset p)%nat in
  branch (0 <? cp_offset p)%nat
    (branch (length input <? buffer_space)%nat
       (let* buf := c_write_slice (cp_buffer p) (cp_offset p) input in
        ret {| cp_state := cp_state p; cp_buffer := buf; cp_offset := cp_offset p + length input; cp_len := l |})
       (let* buf := c_write_slice (cp_buffer p) (cp_offset p) (firstn buffer_space input) in
        c_update_loop (chunks (length buf) (skipn buffer_space input))
          {| cp_state := c_process (cp_state p) buf; cp_buffer := buf; cp_offset := 0; cp_len := l |}))
    (c_update_loop (chunks (length (cp_buffer p)) input)
       {| cp_state := cp_state p; cp_buffer := cp_buffer p; cp_offset := cp_offset p; cp_len := l |}).

Definition c_zero_range (i j : nat) (buf : list W) : list W :=
  firstn i buf ++ repeat (w_lit ops 0) (Nat.min j (length buf) - i) ++ skipn (Nat.max i j) buf.

(** sha2.rs:470-489 [pad]. *)
Definition c_pad (b : build) (p : c_processor) : M c_processor :=
  let* buf := c_write_slice (cp_buffer p) (cp_offset p) [w_lit ops 0x80] in
  let off := S (cp_offset p) in
  let* (st, buf, off) :=
    branch (p_block P - 2 * w_bytes P <? off)%nat
      (let buf := c_zero_range off (length buf) buf in ret (c_process (cp_state p) buf, buf, 0%nat))
      (ret (cp_state p, buf, off)) in
  let buf := c_zero_range off (p_block P - 8) buf in
  let* bits := p_uchk b 64 (8 * cp_len p) in
  let* buf := c_write_slice buf (p_block P - 8) (map (w_lit ops) (be_encode 8 bits)) in
  ret {| cp_state := st; cp_buffer := buf; cp_offset := off; cp_len := cp_len p |}.

(** sha2.rs:421-425 [write_digest]. *)
Definition c_proc_write_digest (b : build) (p : c_processor) (output : list W) : M (list W) :=
  let* p := c_pad b p in
  let st := c_process (cp_state p) (cp_buffer p) in
  let n := (length output / w_bytes P)%nat in
  let* _ := assertM (n <=? length st)%nat in
  let* _ := assertM (n * w_bytes P =? length output)%nat in
  ret (flat_map (w_be_encode ops (w_bytes P)) (firstn n st)).
End Processor.

Section Alg.
(** sha2.rs:105-137: the hash function [impl_function!] makes of a processor
    and an algorithm. *)
Variable P : sha_params.
Variable alg : algorithm.
Let ds := digest_size alg.
Let bs := block_size alg.

Definition c_hdefault : c_processor := c_proc_new P alg.
Definition c_hupdate (b : build) (p : c_processor) (input : list W) : M c_processor :=
  c_proc_update P b p input.
Definition c_hwrite_digest (b : build) (p : c_processor) (output : list W) : M (list W) :=
  let* _ := assertM (ds =? length output)%nat in
  c_proc_write_digest P b p output.

(** sha2.rs:75-83 [impl_wrapper!]. *)
Definition c_hash_wrapper (b : build) (message : list W) : M (list W) :=
  let* s := c_hupdate b c_hdefault message in
  c_hwrite_digest b s (repeat (w_lit ops 0) ds).

(** Any number of [update] calls (the streaming interface). *)
Fixpoint c_updates (b : build) (s : c_processor) (parts : list (list W)) : M c_processor :=
  match parts with
  | [] => ret s
  | x :: parts' => let* s' := c_hupdate b s x in c_updates b s' parts'
  end.

(** hmac.rs:22-31 [Hmac], [Tag]. *)
Record c_hmac := { c_inner : c_processor; c_outer : c_processor }.
Record c_tag := { ct_buffer : list W; ct_size : nat }.
(** hmac.rs:124-136. *)
Definition c_tag_deref (t : c_tag) : M (list W) := c_slice (ct_buffer t) 0 (ct_size t).

(** hmac.rs:106-111. *)
Fixpoint c_update_each (b : build) (s : c_processor) (l : list W) : M c_processor :=
  match l with
  | [] => let* _ := tick (EBranch false) in ret s
  | x :: l' =>
      let* _ := tick (EBranch true) in
      let* s' := c_hupdate b s [x] in c_update_each b s' l'
  end.
(** hmac.rs:104-113 [keyed_hash_function]. *)
Definition c_keyed_hash_function (b : build) (key : list W) (pad : Z) : M c_processor :=
  let* s := c_update_each b c_hdefault (map (fun x => xor x (w_lit ops pad)) key) in
  c_update_each b s (repeat (w_lit ops pad) (bs - length key)).

(** hmac.rs:65-80 [new]. *)
Definition c_hmac_new (b : build) (key : list W) : M c_hmac :=
  let* new_key :=
    branch (bs <? length key)%nat
      (let* out := c_slice (repeat (w_lit ops 0) MAX_DIGEST_SIZE) 0 ds in
       let* s := c_hupdate b c_hdefault key in
       c_hwrite_digest b s out)
      (ret key) in
  let* i := c_keyed_hash_function b new_key 0x36 in
  let* o := c_keyed_hash_function b new_key 0x5c in
  ret {| c_inner := i; c_outer := o |}.

(** hmac.rs:83-85 [update]. *)
Definition c_hmac_update (b : build) (h : c_hmac) (input : list W) : M c_hmac :=
  let* i := c_hupdate b (c_inner h) input in
  ret {| c_inner := i; c_outer := c_outer h |}.

(** hmac.rs:97-102 [write_tag]. *)
Definition c_write_tag (b : build) (h : c_hmac) (output : list W) : M (list W) :=
  let* _ := assertM (ds =? length output)%nat in
  let* output := c_hwrite_digest b (c_inner h) output in
  let* o := c_hupdate b (c_outer h) output in
  c_hwrite_digest b o output.

(** hmac.rs:88-95 [tag]. *)
Definition c_hmac_tag (b : build) (h : c_hmac) : M c_tag :=
  let buffer := repeat (w_lit ops 0) MAX_DIGEST_SIZE in
  let* out := c_slice buffer 0 ds in
  let* out := c_write_tag b h out in
  let* buffer := c_write_slice buffer 0 out in
  ret {| ct_buffer := buffer; ct_size := ds |}.

(** hmac.rs:33-41 [impl_wrapper!]. *)
Definition c_hmac_wrapper (b : build) (key message : list W) : M (list W) :=
  let* h := c_hmac_new b key in
  let* h := c_hmac_update b h message in
  c_write_tag b h (repeat (w_lit ops 0) ds).

(** hmac.rs:117-122 [verify]. *)
Definition c_hmac_verify (b : build) (key message tg : list W) : M bool :=
  let* h := c_hmac_new b key in
  let* h := c_hmac_update b h message in
  let* t := c_hmac_tag b h in
  let* expected := c_tag_deref t in
  c_verify_eq expected tg.

(** hkdf.rs:24-30 [extract]. *)
Definition c_extract (b : build) (salt ikm prk : list W) : M (list W) :=
  let* _ := assertM (ds =? length prk)%nat in
  let* h := c_hmac_new b salt in
  let* h := c_hmac_update b h ikm in
  let* t := c_hmac_tag b h in
  let* t := c_tag_deref t in
  let* _ := assertM (length prk =? length t)%nat in
  ret t.

(** hkdf.rs:43-55. *)
Fixpoint c_expand_loop (b : build) (prk info : list W) (i : Z) (h : c_hmac) (cs : list (list W))
  : M (list (list W)) :=
  let* inext := p_uchk b 8 (i + 1) in
  match cs with
  | [] => let* _ := tick (EBranch false) in ret []
  | chunk :: cs' =>
      let* _ := tick (EBranch true) in
      let* h := c_hmac_update b h info in
      let* h := c_hmac_update b h [w_lit ops i] in
      let* t := c_hmac_tag b h in
      let* t := c_tag_deref t in
      branch (length chunk <? ds)%nat
        (let* t' := c_slice t 0 (length chunk) in
         ret (t' :: cs'))
        (let* _ := assertM (length chunk =? length t)%nat in
         let* h := c_hmac_new b prk in
         let* h := c_hmac_update b h t in
         let* rest := c_expand_loop b prk info inext h cs' in
         ret (t :: rest))
  end.
(** hkdf.rs:38-56 [expand]. *)
Definition c_expand (b : build) (prk info okm : list W) : M (list W) :=
  let* _ := assertM (ds <=? length prk)%nat in
  let* _ := assertM (length okm <=? 255 * ds)%nat in
  let* h := c_hmac_new b prk in
  let* _ := assertM (0 <? ds)%nat in
  let* cs := c_expand_loop b prk info 1 h (chunks ds okm) in
  ret (concat cs).
End Alg.
End Ct.
