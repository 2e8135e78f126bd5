(** Model of src/hkdf.rs. *)
From Verif Require Import Base M_Sha2 M_Hmac.

Section Hkdf.
Variable H : HashFunction.

(** hkdf.rs:24-30 [extract]; [prk] is the buffer before the call.  The final
    [copy_from_slice] panics when the lengths differ. *)
Definition extract (b : build) (salt ikm prk : list Z) : res (list Z) :=
  let! _ := assertb (DIGEST_SIZE H =? length prk)%nat in
  let! h := hmac_new H b salt in
  let! h := hmac_update H b h ikm in
  let! t := hmac_tag H b h in
  let! t := tag_deref t in
  let! _ := assertb (length prk =? length t)%nat in
  Ok t.

(** hkdf.rs:43-55: the loop over [(1..).zip(okm.chunks_mut(digest_size))].
    [i] is the [u8] state of the range; [zip] calls [next] on the range first,
    and that call computes [i + 1].  [cs] are the chunks not yet written. *)
Fixpoint expand_loop (b : build) (prk info : list Z) (i : Z) (h : hmac H) (cs : list (list Z))
  : res (list (list Z)) :=
  let! inext := uchk b 8 (i + 1) in
  match cs with
  | [] => Ok []
  | chunk :: cs' =>
      let! h := hmac_update H b h info in
      let! h := hmac_update H b h [i] in
      let! t := hmac_tag H b h in
      let! t := tag_deref t in
      if (length chunk <? DIGEST_SIZE H)%nat
      then
        let! t' := slice t 0 (length chunk) in
        Ok (t' :: cs')
      else
        let! _ := assertb (length chunk =? length t)%nat in
        let! h := hmac_new H b prk in
        let! h := hmac_update H b h t in
        let! rest := expand_loop b prk info inext h cs' in
        Ok (t :: rest)
  end.

(** hkdf.rs:38-56 [expand]; [okm] is the buffer before the call.
    [chunks_mut(0)] panics. *)
Definition expand (b : build) (prk info okm : list Z) : res (list Z) :=
  let ds := DIGEST_SIZE H in
  let! _ := assertb (ds <=? length prk)%nat in
  let! _ := assertb (length okm <=? 255 * ds)%nat in
  let! h := hmac_new H b prk in
  let! _ := assertb (0 <? ds)%nat in
  let! cs := expand_loop b prk info 1 h (chunks ds okm) in
  Ok (concat cs).

End Hkdf.
