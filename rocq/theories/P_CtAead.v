(** The leakage model of the ciphers and AEADs computes what M_ChaCha20.v,
    M_Poly1305.v, M_Aes.v, M_Ghash.v and M_Gcm.v compute, and its trace depends
    on lengths only (for decryption: on lengths and the verdict). *)
From Verif Require Import Base M_Util M_ChaCha20 M_Poly1305 M_Aes M_Ghash M_Gcm
  M_CtBase M_CtHash M_CtAead P_CtBase P_CtHash.

(** * Results *)

Local Ltac zops := cbv beta iota zeta delta [Zops w_lit w_xor w_and w_or w_shr w_ushl w_uas w_sas c_get].

Lemma c_quarter_round_eq s i j k l : c_quarter_round Zops s i j k l = quarter_round s i j k l.
Proof. reflexivity. Qed.
Lemma c_inner_block_eq s : c_inner_block Zops s = inner_block s.
Proof.
  assert (E : forall s t i j k l, s = t -> c_quarter_round Zops s i j k l = quarter_round t i j k l).
  { intros s0 t i j k l <-. apply c_quarter_round_eq. }
  unfold c_inner_block, inner_block. cbv zeta.
  do 8 (refine (E _ _ _ _ _ _ _)). exact eq_refl.
Qed.
Lemma iter_ext {A} (f g : A -> A) (E : forall x, f x = g x) n : forall x, Nat.iter n f x = Nat.iter n g x.
Proof. induction n as [|n IH]; intros x; [reflexivity|]. change (f (Nat.iter n f x) = g (Nat.iter n g x)). now rewrite IH, E. Qed.
Local Opaque Nat.iter c_inner_block inner_block.
Lemma c_transform_state_eq s c : c_transform_state Zops s c = transform_state s c.
Proof.
  unfold c_transform_state, transform_state. cbv zeta.
  rewrite (iter_ext _ _ c_inner_block_eq). exact eq_refl.
Qed.
Lemma c_chacha_block_eq s c : c_chacha_block Zops s c = chacha_block s c.
Proof. unfold c_chacha_block, chacha_block. rewrite c_transform_state_eq. generalize (transform_state s c). intros X. exact eq_refl. Qed.
Lemma sim_chacha_new key nonce : simi (c_chacha_new Zops key nonce) (chacha_new key nonce).
Proof.
  unfold c_chacha_new, chacha_new. eapply sim_bind; [apply sim_assert|]. intros [].
  eapply sim_bind; [apply sim_assert|]. intros []. reflexivity.
Qed.

Definition ofs (s : c_stream (W := Z)) : stream :=
  {| st_chacha := cs_chacha s; st_counter := cs_counter s; st_block := cs_block s; st_index := cs_index s |}.
Definition ofs2 {A} (x : A * c_stream (W := Z)) : A * stream := (fst x, ofs (snd x)).

Lemma sim_stream_new key nonce : sim ofs (c_stream_new Zops key nonce) (stream_new key nonce).
Proof.
  unfold c_stream_new, stream_new. eapply sim_bind; [apply sim_chacha_new|]. intros c.
  rewrite c_chacha_block_eq. reflexivity.
Qed.
Lemma sim_stream_next b s : sim ofs2 (c_stream_next Zops b s) (stream_next b (ofs s)).
Proof.
  unfold c_stream_next, stream_next. eapply (sim_bind ofs).
  - apply sim_branch; [|reflexivity]. eapply sim_bind; [apply sim_p_uchk|]. intros c.
    rewrite c_chacha_block_eq. reflexivity.
  - intros s'. apply sim_tick. eapply sim_bind; [apply sim_assert|]. intros []. reflexivity.
Qed.
Lemma sim_process_loop b output : forall s input,
  sim ofs2 (c_process_loop Zops b s output input) (process_loop b (ofs s) output input).
Proof.
  induction output as [|o output IH]; intros s [|z input]; cbn [c_process_loop process_loop];
    try (apply sim_tick; reflexivity).
  apply sim_tick. eapply sim_bind; [apply sim_stream_next|]. intros [y s1].
  eapply sim_bind; [apply IH|]. intros [rest s2]. reflexivity.
Qed.
Lemma sim_stream_process b s input output :
  sim ofs2 (c_stream_process Zops b s input output) (stream_process b (ofs s) input output).
Proof.
  unfold c_stream_process, stream_process. eapply sim_bind; [apply sim_assert|]. intros [].
  apply sim_process_loop.
Qed.

Definition ofpf (p : c_polyfun (W := Z)) : polyfun := {| pr := c_pr p; ph := c_ph p; pconst := c_pconst p |}.

Lemma sim_add_loop b h : forall u c, simi (c_add_loop Zops b u h c) (add_loop b u h c).
Proof.
  induction h as [|hj h IH]; intros u [|cj c]; cbn [c_add_loop add_loop]; try reflexivity.
  eapply sim_bind; [apply sim_z_uchk|]. intros t.
  eapply sim_bind; [apply sim_z_uchk|]. intros u'.
  eapply sim_bind; [apply IH|]. intros [h' u'']. reflexivity.
Qed.
Lemma sim_poly_add b h c last : simi (c_poly_add Zops b h c last) (poly_add b h c last).
Proof.
  unfold c_poly_add, poly_add. eapply sim_bind; [apply sim_add_loop|]. intros [h' u].
  eapply sim_bind; [apply sim_z_uchk|]. intros t.
  eapply sim_bind; [apply sim_z_uchk|]. intros t'. reflexivity.
Qed.
Lemma sim_mul_lo b r h i js : forall u, simi (c_mul_lo Zops b r h i js u) (mul_lo b r h i js u).
Proof.
  induction js as [|j js IH]; intros u; cbn [c_mul_lo mul_lo]; [reflexivity|].
  do 2 apply sim_tick.
  eapply sim_bind; [apply sim_z_uchk|]. intros m.
  eapply sim_bind; [apply sim_z_uchk|]. intros u'. apply IH.
Qed.
Lemma sim_mul_hi b r h i js : forall u, simi (c_mul_hi Zops b r h i js u) (mul_hi b r h i js u).
Proof.
  induction js as [|j js IH]; intros u; cbn [c_mul_hi mul_hi]; [reflexivity|].
  apply sim_tick.
  eapply sim_bind; [apply sim_z_uchk|]. intros m. apply sim_tick.
  eapply sim_bind; [apply sim_z_uchk|]. intros m'.
  eapply sim_bind; [apply sim_z_uchk|]. intros u'. apply IH.
Qed.
Lemma sim_mul_rows b r h is : simi (c_mul_rows Zops b r h is) (mul_rows b r h is).
Proof.
  induction is as [|i is IH]; cbn [c_mul_rows mul_rows]; [reflexivity|].
  eapply sim_bind; [apply sim_mul_lo|]. intros u.
  eapply sim_bind; [apply sim_mul_hi|]. intros u'.
  eapply sim_bind; [apply IH|]. intros rest. reflexivity.
Qed.
Lemma sim_squeeze_loop b n : forall u h, simi (c_squeeze_loop Zops b n u h) (squeeze_loop b n u h).
Proof.
  induction n as [|n IH]; intros u [|hj h]; cbn [c_squeeze_loop squeeze_loop]; try reflexivity.
  eapply sim_bind; [apply sim_z_uchk|]. intros u'.
  eapply sim_bind; [apply IH|]. intros [h' u'']. reflexivity.
Qed.
Lemma sim_squeeze b h : simi (c_squeeze Zops b h) (squeeze b h).
Proof.
  unfold c_squeeze, squeeze.
  eapply sim_bind; [apply sim_squeeze_loop|]. intros [h1 u1].
  eapply sim_bind; [apply sim_z_uchk|]. intros u2.
  eapply sim_bind; [apply sim_z_uchk|]. intros u3.
  eapply sim_bind; [apply sim_squeeze_loop|]. intros [h2 u4].
  eapply sim_bind; [apply sim_z_uchk|]. intros u5. reflexivity.
Qed.
Lemma sim_mulmod b r h : simi (c_mulmod Zops b r h) (mulmod b r h).
Proof.
  unfold c_mulmod, mulmod. eapply sim_bind; [apply sim_mul_rows|]. intros hr. apply sim_squeeze.
Qed.
Lemma sim_poly_process b p input :
  sim ofpf (c_poly_process Zops b p input) (poly_process b (ofpf p) input).
Proof.
  unfold c_poly_process, poly_process.
  eapply sim_bind; [apply sim_poly_add|]. intros h.
  eapply sim_bind; [apply sim_mulmod|]. intros h'. reflexivity.
Qed.
Lemma sim_freeze b h : simi (c_freeze Zops b h) (freeze b h).
Proof.
  unfold c_freeze, freeze. rewrite map_id_lit. eapply sim_bind; [apply sim_poly_add|]. intros h'. reflexivity.
Qed.
Lemma sim_poly_write_value b p : simi (c_poly_write_value Zops b p) (poly_write_value b (ofpf p)).
Proof.
  unfold c_poly_write_value, poly_write_value.
  eapply sim_bind; [apply sim_freeze|]. intros h.
  eapply sim_bind; [apply sim_poly_add|]. intros h'. apply sim_ret. reflexivity.
Qed.
Lemma sim_poly_chunks b cs : forall p,
  sim ofpf (c_poly_chunks Zops b p cs) (poly_chunks b (ofpf p) cs).
Proof.
  induction cs as [|c cs IH]; intros p; cbn [c_poly_chunks poly_chunks]; apply sim_tick; [reflexivity|].
  eapply (sim_bind ofpf).
  - apply sim_branch; [|apply sim_poly_process].
    eapply sim_bind; [apply sim_write_slice|]. intros buf. apply sim_poly_process.
  - intros p'. apply IH.
Qed.
Lemma sim_poly1305 b key data ct : simi (c_poly1305 Zops b key data ct) (poly1305 b key data ct).
Proof.
  unfold c_poly1305, poly1305.
  change (poly_new key) with (ofpf (c_poly_new Zops key)).
  eapply sim_bind; [apply sim_poly_chunks|]. intros p1.
  eapply sim_bind; [apply sim_p_uchk|]. intros cl.
  eapply sim_bind; [apply sim_poly_chunks|]. intros p2. rewrite map_id_lit.
  eapply sim_bind; [apply sim_poly_process|]. intros p3. apply sim_poly_write_value.
Qed.
Lemma sim_ctr_loop b blk ins : forall i outs,
  simi (c_ctr_loop Zops b blk i ins outs) (ctr_loop b blk i ins outs).
Proof.
  induction ins as [|c ins IH]; intros i [|o outs]; cbn [c_ctr_loop ctr_loop];
    (eapply sim_bind; [apply sim_p_uchk|]; intros inext; apply sim_tick); try reflexivity.
  eapply sim_bind; [apply IH|]. intros rest. reflexivity.
Qed.
Lemma ctr_loop_ext b blk blk' (E : forall i, blk i = blk' i) ins : forall i outs,
  ctr_loop b blk i ins outs = ctr_loop b blk' i ins outs.
Proof.
  induction ins as [|c ins IH]; intros i [|o outs]; cbn [ctr_loop]; auto.
  destruct (uchk b 32 (i + 1)); cbn [bind]; [|reflexivity]. rewrite IH, E. reflexivity.
Qed.
Lemma sim_aead_process b cipher input output :
  simi (c_aead_process Zops b cipher input output) (aead_process b cipher input output).
Proof.
  unfold c_aead_process, aead_process.
  eapply sim_bind; [|intros outs; reflexivity].
  rewrite <- (ctr_loop_ext b _ _ (c_chacha_block_eq cipher)). apply sim_ctr_loop.
Qed.
Lemma sim_aead_tag b cipher ct data :
  simi (c_aead_tag Zops b cipher ct data) (aead_tag b cipher ct data).
Proof. unfold c_aead_tag, aead_tag. rewrite c_chacha_block_eq. apply sim_poly1305. Qed.
Lemma sim_ccp_encrypt b key input nonce data output :
  simi (c_ccp_encrypt Zops b key input nonce data output) (ccp_encrypt b key input nonce data output).
Proof.
  unfold c_ccp_encrypt, ccp_encrypt. eapply sim_bind; [apply sim_assert|]. intros [].
  eapply sim_bind; [apply sim_chacha_new|]. intros c.
  eapply sim_bind; [apply sim_aead_process|]. intros o.
  eapply sim_bind; [apply sim_aead_tag|]. intros t. reflexivity.
Qed.
Lemma sim_verify_16 x y : simi (c_verify_eq Zops x y) (verify_16 x y).
Proof. apply sim_verify_eq. Qed.
Lemma sim_ccp_decrypt b key input nonce data tag output :
  simi (c_ccp_decrypt Zops b key input nonce data tag output) (ccp_decrypt b key input nonce data tag output).
Proof.
  unfold c_ccp_decrypt, ccp_decrypt. eapply sim_bind; [apply sim_assert|]. intros [].
  eapply sim_bind; [apply sim_chacha_new|]. intros c.
  eapply sim_bind; [apply sim_aead_tag|]. intros t.
  eapply sim_bind; [apply sim_verify_16|]. intros ok.
  apply sim_branch; [|reflexivity].
  eapply sim_bind; [apply sim_aead_process|]. intros o. reflexivity.
Qed.

(** AES. *)
Lemma c_g4_sq_eq x : c_g4_sq Zops x = g4_sq x.
Proof. reflexivity. Qed.
Lemma c_g4_scl_n2_eq x : c_g4_scl_n2 Zops x = g4_scl_n2 x.
Proof. reflexivity. Qed.
Lemma c_g4_scl_n_eq x : c_g4_scl_n Zops x = g4_scl_n x.
Proof. reflexivity. Qed.
Lemma c_g4_mul_eq x y : c_g4_mul Zops x y = g4_mul x y.
Proof. reflexivity. Qed.
Local Ltac rw :=
  repeat match goal with
  | |- context [c_g4_mul Zops ?a ?b] => rewrite (c_g4_mul_eq a b)
  | |- context [c_g4_sq Zops ?a] => rewrite (c_g4_sq_eq a)
  | |- context [c_g4_scl_n Zops ?a] => rewrite (c_g4_scl_n_eq a)
  | |- context [c_g4_scl_n2 Zops ?a] => rewrite (c_g4_scl_n2_eq a)
  end.
Local Opaque c_g4_sq c_g4_scl_n2 c_g4_scl_n c_g4_mul g4_sq g4_scl_n2 g4_scl_n g4_mul.
Lemma c_g16_sq_scl_eq x : c_g16_sq_scl Zops x = g16_sq_scl x.
Proof. unfold c_g16_sq_scl, g16_sq_scl. cbv zeta. rw. zops. exact eq_refl. Qed.
Lemma c_g16_mul_eq x y : c_g16_mul Zops x y = g16_mul x y.
Proof.
  unfold c_g16_mul, g16_mul. cbv zeta.
  rw. zops. exact eq_refl.
Qed.
Lemma c_g16_inv_eq x : c_g16_inv Zops x = g16_inv x.
Proof.
  unfold c_g16_inv, g16_inv. cbv zeta.
  rw. zops. exact eq_refl.
Qed.
Local Ltac rw16 :=
  repeat match goal with
  | |- context [c_g16_mul Zops ?a ?b] => rewrite (c_g16_mul_eq a b)
  | |- context [c_g16_inv Zops ?a] => rewrite (c_g16_inv_eq a)
  | |- context [c_g16_sq_scl Zops ?a] => rewrite (c_g16_sq_scl_eq a)
  end.
Local Opaque c_g16_sq_scl c_g16_mul c_g16_inv g16_sq_scl g16_mul g16_inv.
Lemma c_g256_inv_eq x : c_g256_inv Zops x = g256_inv x.
Proof.
  unfold c_g256_inv, g256_inv. cbv zeta.
  rw16. zops. exact eq_refl.
Qed.
Local Opaque c_g256_inv g256_inv.
Lemma c_newbasis_loop_eq bs : forall x y, c_newbasis_loop Zops bs x y = newbasis_loop bs x y.
Proof. reflexivity. Qed.
Lemma c_newbasis_eq x bs : c_g256_newbasis Zops x bs = g256_newbasis x bs.
Proof. apply c_newbasis_loop_eq. Qed.
Local Opaque c_g256_newbasis g256_newbasis.
Lemma c_s_box_eq x : c_s_box Zops x = s_box x.
Proof.
  unfold c_s_box, s_box. cbv zeta. rewrite (c_newbasis_eq x A2X), c_g256_inv_eq, c_newbasis_eq. zops. exact eq_refl.
Qed.
Lemma c_xtime_eq x : c_xtime Zops x = xtime x.
Proof. reflexivity. Qed.
Local Opaque c_s_box s_box c_xtime xtime.
Lemma c_sub_bytes_eq l : c_sub_bytes Zops l = sub_bytes l.
Proof. unfold c_sub_bytes, sub_bytes. apply map_ext. apply c_s_box_eq. Qed.
Lemma c_sub_word_eq l : c_sub_word Zops l = sub_word l.
Proof. unfold c_sub_word, sub_word. apply map_ext. apply c_s_box_eq. Qed.
Lemma c_shift_rows_eq l : c_shift_rows Zops l = shift_rows l.
Proof. reflexivity. Qed.
Lemma c_mix_column_eq l : c_mix_column Zops l = mix_column l.
Proof.
  unfold c_mix_column, mix_column, c_xor_column, xor_column, c_xtime_column, xtime_column.
  cbv zeta. repeat match goal with |- context [c_xtime Zops ?a] => rewrite (c_xtime_eq a) end. exact eq_refl.
Qed.
Lemma c_mix_columns_eq l : c_mix_columns Zops l = mix_columns l.
Proof. unfold c_mix_columns, mix_columns. apply (f_equal (@concat Z)). apply map_ext. apply c_mix_column_eq. Qed.
Local Opaque c_sub_bytes sub_bytes c_sub_word sub_word c_shift_rows shift_rows c_mix_columns mix_columns.
Lemma c_cipher_round_eq k s r : c_cipher_round Zops k s r = cipher_round k s r.
Proof.
  unfold c_cipher_round, cipher_round. rewrite c_sub_bytes_eq, c_shift_rows_eq, c_mix_columns_eq. exact eq_refl.
Qed.
Lemma fold_left_ext2 {A B} (f g : A -> B -> A) (E : forall a b, f a b = g a b) l : forall a,
  fold_left f l a = fold_left g l a.
Proof. induction l as [|x l IH]; intros a; cbn; [reflexivity|]. rewrite E. apply IH. Qed.
Lemma c_permute_eq NK k x : c_permute Zops NK k x = permute NK k x.
Proof.
  unfold c_permute, permute. cbv zeta.
  rewrite (fold_left_ext2 _ _ (c_cipher_round_eq k)), c_sub_bytes_eq, c_shift_rows_eq. exact eq_refl.
Qed.
Lemma c_expansion_loop_eq NK n : forall i s r,
  c_expansion_loop Zops NK n i s r = expansion_loop NK n i s r.
Proof.
  induction n as [|n IH]; intros i s r; cbn [c_expansion_loop expansion_loop]; [reflexivity|].
  repeat match goal with |- context [c_sub_word Zops ?a] => rewrite (c_sub_word_eq a) end.
  rewrite c_xtime_eq.
  change (w_xor Zops) with Z.lxor. change (c_get Zops) with get.
  destruct (i mod NK =? 0)%nat; [apply IH|].
  destruct ((6 <? NK)%nat && (i mod NK =? 4)%nat); apply IH.
Qed.
Lemma sim_key_expansion NK key : simi (c_key_expansion Zops NK key) (key_expansion NK key).
Proof.
  unfold c_key_expansion, key_expansion. eapply sim_bind; [apply sim_assert|]. intros [].
  eapply sim_bind; [apply sim_write_slice|]. intros s. rewrite c_expansion_loop_eq. reflexivity.
Qed.

(** GHASH. *)
Lemma c_gf_loop_eq n : forall s x v, c_gf_loop Zops n s x v = gf_loop n s x v.
Proof. reflexivity. Qed.
Lemma c_gf_process_eq k s i : c_gf_process Zops k s i = gf_process k s i.
Proof. unfold c_gf_process, gf_process. apply c_gf_loop_eq. Qed.
Lemma sim_ghash_chunks k cs : forall s, simi (c_ghash_chunks Zops k s cs) (ghash_chunks k s cs).
Proof.
  induction cs as [|c cs IH]; intros s; cbn [c_ghash_chunks ghash_chunks]; apply sim_tick; [reflexivity|].
  eapply (sim_bind (fun x => x)).
  - rewrite c_gf_process_eq. apply sim_branch; [|reflexivity].
    eapply sim_bind; [apply sim_write_slice|]. intros buf. rewrite c_gf_process_eq. reflexivity.
  - intros s'. apply IH.
Qed.
Lemma sim_ghash b key data ct : simi (c_ghash Zops b key data ct) (ghash b key data ct).
Proof.
  unfold c_ghash, ghash.
  eapply sim_bind; [apply sim_ghash_chunks|]. intros s1.
  eapply sim_bind; [apply sim_p_uchk|]. intros cl.
  eapply sim_bind; [apply sim_ghash_chunks|]. intros s2.
  eapply sim_bind; [apply sim_p_uchk|]. intros dl.
  eapply sim_bind; [apply sim_p_uchk|]. intros cl'. rewrite map_id_lit, c_gf_process_eq. reflexivity.
Qed.

(** GCM. *)
Lemma sim_check_bounds m c n d : simi (c_check_bounds m c n d) (check_bounds m c n d).
Proof.
  unfold c_check_bounds, check_bounds.
  eapply sim_bind; [apply sim_assert|]. intros [].
  eapply sim_bind; [apply sim_assert|]. intros [].
  eapply sim_bind; [apply sim_assert|]. intros []. apply sim_assert.
Qed.
Lemma sim_counter n : simi (c_counter Zops n) (counter n).
Proof.
  unfold c_counter, counter. eapply sim_bind; [apply sim_assert|]. intros []. apply sim_write_slice.
Qed.
Section Gcm.
Variable NK : nat.
Lemma c_gcm_block_eq k c i : c_gcm_block Zops NK k c i = gcm_block (impl_cipher NK) k c i.
Proof. unfold c_gcm_block, gcm_block. rewrite map_id_lit. apply c_permute_eq. Qed.
Lemma sim_gcm_process b k c input output :
  simi (c_gcm_process Zops NK b k c input output) (gcm_process (impl_cipher NK) b k c input output).
Proof.
  unfold c_gcm_process, gcm_process. eapply sim_bind; [|intros outs; reflexivity].
  rewrite <- (ctr_loop_ext b _ _ (c_gcm_block_eq k c)). apply sim_ctr_loop.
Qed.
Lemma sim_gcm_tag b k ct d c :
  simi (c_gcm_tag Zops NK b k ct d c) (gcm_tag (impl_cipher NK) b k ct d c).
Proof.
  unfold c_gcm_tag, gcm_tag. rewrite c_gcm_block_eq, c_permute_eq.
  eapply sim_bind; [apply sim_ghash|]. intros h. reflexivity.
Qed.
Lemma sim_gcm_encrypt b k input nonce data output :
  simi (c_gcm_encrypt Zops NK b k input nonce data output)
       (gcm_encrypt (impl_cipher NK) b k input nonce data output).
Proof.
  unfold c_gcm_encrypt, gcm_encrypt. eapply sim_bind; [apply sim_check_bounds|]. intros [].
  eapply sim_bind; [apply sim_counter|]. intros c.
  eapply sim_bind; [apply sim_gcm_process|]. intros o.
  eapply sim_bind; [apply sim_gcm_tag|]. intros t. reflexivity.
Qed.
Lemma sim_gcm_decrypt b k input nonce data tag output :
  simi (c_gcm_decrypt Zops NK b k input nonce data tag output)
       (gcm_decrypt (impl_cipher NK) b k input nonce data tag output).
Proof.
  unfold c_gcm_decrypt, gcm_decrypt. eapply sim_bind; [apply sim_check_bounds|]. intros [].
  eapply sim_bind; [apply sim_counter|]. intros c.
  eapply sim_bind; [apply sim_gcm_tag|]. intros t.
  eapply sim_bind; [apply sim_verify_16|]. intros ok.
  apply sim_branch; [|reflexivity].
  eapply sim_bind; [apply sim_gcm_process|]. intros o. reflexivity.
Qed.
End Gcm.

(** * Traces *)

Lemma upd_leq {A B} (l : list A) (m : list B) i v w : leq l m -> leq (upd l i v) (upd m i w).
Proof. unfold leq. now rewrite !upd_length. Qed.
Lemma zipwith_leq {A B C D E F} (f : A -> B -> C) (g : D -> E -> F) l m l' m' :
  leq l l' -> leq m m' -> leq (zipwith f l m) (zipwith g l' m').
Proof. unfold leq. rewrite !zipwith_length_min. congruence. Qed.
Lemma app_leq {A B} (l m : list A) (l' m' : list B) : leq l l' -> leq m m' -> leq (l ++ m) (l' ++ m').
Proof. unfold leq. rewrite !app_length. congruence. Qed.
Lemma leq_refl {A} (l : list A) : leq l l.
Proof. reflexivity. Qed.
Lemma chunks_map_leq {A B C D} (f : list A -> B) (g : list C -> D) n l m :
  leq l m -> leq (map f (chunks n l)) (map g (chunks n m)).
Proof.
  intros H. apply chunks_leq with (n := n) in H. unfold leq. rewrite !map_length.
  induction H; cbn; congruence.
Qed.

Lemma rel_chacha_new k1 k2 n1 n2 : leq k1 k2 -> leq n1 n2 ->
  rel leq (c_chacha_new Zops k1 n1) (c_chacha_new Zops k2 n2).
Proof.
  intros Hk Hn. unfold c_chacha_new. rewrite Hk, Hn.
  eapply rel_bind; [apply rel_assert; reflexivity|]. intros _ _ _.
  eapply rel_bind; [apply rel_assert; reflexivity|]. intros _ _ _.
  apply rel_ret. apply app_leq; [exact eq_refl|].
  apply app_leq; [now apply chunks_map_leq|]. apply app_leq; [exact eq_refl|]. now apply chunks_map_leq.
Qed.
Lemma quarter_round_len s i j k l : length (quarter_round s i j k l) = length s.
Proof. unfold quarter_round. now rewrite !upd_length. Qed.
Lemma iter_len (f : list Z -> list Z) (E : forall s, length (f s) = length s) n :
  forall s, length (Nat.iter n f s) = length s.
Proof.
  induction n as [|n IH]; intros s; [reflexivity|].
  change (length (f (Nat.iter n f s)) = length s). now rewrite E.
Qed.
Local Transparent inner_block.
Lemma inner_block_len s : length (inner_block s) = length s.
Proof.
  unfold inner_block. cbv zeta.
  do 8 (rewrite quarter_round_len). exact eq_refl.
Qed.
Local Opaque inner_block.
Lemma transform_state_len s c : length (transform_state s c) = length s.
Proof.
  unfold transform_state. cbv zeta. rewrite upd_length, zipwith_length_min.
  rewrite (iter_len _ inner_block_len), upd_length. apply Nat.min_id.
Qed.
Lemma flat_map_le_len n l : length (flat_map (le_encode n) l) = (length l * n)%nat.
Proof. induction l as [|x l IH]; cbn; [reflexivity|]. now rewrite app_length, le_encode_len, IH. Qed.
Lemma chacha_block_len s c : length (c_chacha_block Zops s c) = (length s * 4)%nat.
Proof.
  rewrite c_chacha_block_eq. unfold chacha_block. rewrite flat_map_le_len.
  now rewrite transform_state_len.
Qed.
Lemma chacha_block_leq s1 s2 c1 c2 : leq s1 s2 -> leq (c_chacha_block Zops s1 c1) (c_chacha_block Zops s2 c2).
Proof. unfold leq. rewrite !chacha_block_len. congruence. Qed.

Definition Rs (s t : c_stream (W := Z)) : Prop :=
  leq (cs_chacha s) (cs_chacha t) /\ cs_counter s = cs_counter t /\
  leq (cs_block s) (cs_block t) /\ cs_index s = cs_index t.
Definition Rs2 {A B} (R : A -> B -> Prop) (x : A * c_stream (W := Z)) (y : B * c_stream (W := Z)) : Prop :=
  R (fst x) (fst y) /\ Rs (snd x) (snd y).

Lemma rel_stream_new k1 k2 n1 n2 : leq k1 k2 -> leq n1 n2 ->
  rel Rs (c_stream_new Zops k1 n1) (c_stream_new Zops k2 n2).
Proof.
  intros Hk Hn. unfold c_stream_new.
  eapply rel_bind; [apply rel_chacha_new; [exact Hk|exact Hn]|]. intros c1 c2 Hc.
  apply rel_ret. split; [exact Hc|]. split; [exact eq_refl|]. split; [|exact eq_refl].
  apply chacha_block_leq. exact Hc.
Qed.
Lemma rel_stream_next b s1 s2 : Rs s1 s2 ->
  rel (Rs2 anyr) (c_stream_next Zops b s1) (c_stream_next Zops b s2).
Proof.
  intros Hs. unfold c_stream_next. apply (rel_bind Rs).
  - destruct Hs as (H1 & H2 & H3 & H4). rewrite H4, H2.
    apply rel_branch; [reflexivity| |apply rel_ret; repeat split; assumption].
    eapply rel_bind; [apply rel_p_uchk; reflexivity|]. intros c ? <-.
    apply rel_ret. split; [exact H1|]. split; [exact eq_refl|]. split; [|exact eq_refl].
    apply chacha_block_leq. exact H1.
  - intros t1 t2 (H1 & H2 & H3 & H4). rewrite H4, H3.
    eapply rel_bind; [apply rel_tick; reflexivity|]. intros _ _ _.
    eapply rel_bind; [apply rel_assert; reflexivity|]. intros _ _ _.
    apply rel_ret. split; [exact I|]. split; [exact H1|]. split; [exact H2|]. split; [exact H3|].
    exact eq_refl.
Qed.
Lemma rel_process_loop b o1 : forall o2 i1 i2 s1 s2, leq o1 o2 -> leq i1 i2 -> Rs s1 s2 ->
  rel (Rs2 leq) (c_process_loop Zops b s1 o1 i1) (c_process_loop Zops b s2 o2 i2).
Proof.
  induction o1 as [|x o1 IH]; intros [|y o2] i1 i2 s1 s2 Ho Hi Hs; try discriminate Ho.
  - assert (Hd : forall (s : c_stream (W := Z)) (i : list Z), c_process_loop Zops b s [] i =
      (let* _ := tick (EBranch false) in ret ([], s))) by reflexivity.
    rewrite !Hd. eapply rel_bind; [apply rel_tick; reflexivity|]. intros _ _ _.
    apply rel_ret. split; [exact eq_refl|exact Hs].
  - destruct i1 as [|z1 i1], i2 as [|z2 i2]; try discriminate Hi; cbn [c_process_loop].
    + eapply rel_bind; [apply rel_tick; reflexivity|]. intros _ _ _.
      apply rel_ret. split; [exact Ho|exact Hs].
    + eapply rel_bind; [apply rel_tick; reflexivity|]. intros _ _ _.
      eapply rel_bind; [apply rel_stream_next; exact Hs|]. intros [y1 t1] [y2 t2] [_ Ht].
      eapply rel_bind; [apply (IH o2 i1 i2 t1 t2); [|  |exact Ht]|].
      * unfold leq in *. cbn in Ho. congruence.
      * unfold leq in *. cbn in Hi. congruence.
      * intros [r1 u1] [r2 u2] [Hr Hu]. apply rel_ret. split; [|exact Hu].
        unfold leq in *. cbn in *. congruence.
Qed.
Lemma rel_stream_process b s1 s2 i1 i2 o1 o2 : Rs s1 s2 -> leq i1 i2 -> leq o1 o2 ->
  rel (Rs2 leq) (c_stream_process Zops b s1 i1 o1) (c_stream_process Zops b s2 i2 o2).
Proof.
  intros Hs Hi Ho. unfold c_stream_process. rewrite Hi, Ho.
  eapply rel_bind; [apply rel_assert; reflexivity|]. intros _ _ _. now apply rel_process_loop.
Qed.

(** Poly1305. *)
Definition R1 {A B} (x y : list A * B) : Prop := leq (fst x) (fst y).
Lemma wrel_add_loop b h1 : forall h2 c1 c2 u1 u2, leq h1 h2 -> leq c1 c2 ->
  wrel R1 (c_add_loop Zops b u1 h1 c1) (c_add_loop Zops b u2 h2 c2).
Proof.
  induction h1 as [|x h1 IH]; intros [|y h2] c1 c2 u1 u2 Hh Hc; try discriminate Hh.
  - destruct c1, c2; try discriminate Hc; apply wrel_ret; exact eq_refl.
  - destruct c1 as [|z1 c1], c2 as [|z2 c2]; try discriminate Hc; cbn [c_add_loop].
    + apply wrel_ret. exact Hh.
    + eapply wrel_bind; [apply wrel_z_uchk|]. intros t1 t2 _.
      eapply wrel_bind; [apply wrel_z_uchk|]. intros v1 v2 _.
      eapply wrel_bind; [apply (IH h2 c1 c2)|].
      * unfold leq in *. cbn in Hh. congruence.
      * unfold leq in *. cbn in Hc. congruence.
      * intros [r1 w1] [r2 w2] Hr. apply wrel_ret. unfold R1, leq in *. cbn [fst length] in *. congruence.
Qed.
Lemma wrel_poly_add b h1 h2 c1 c2 n : leq h1 h2 -> leq c1 c2 ->
  wrel leq (c_poly_add Zops b h1 c1 n) (c_poly_add Zops b h2 c2 n).
Proof.
  intros Hh Hc. unfold c_poly_add.
  eapply wrel_bind; [apply wrel_add_loop; [exact Hh|exact Hc]|]. intros [r1 u1] [r2 u2] Hr.
  eapply wrel_bind; [apply wrel_z_uchk|]. intros t1 t2 _.
  eapply wrel_bind; [apply wrel_z_uchk|]. intros v1 v2 _.
  apply wrel_ret. apply upd_leq. exact Hr.
Qed.
Lemma wrel_mul_lo b r1 r2 h1 h2 i js : forall u1 u2,
  wrel anyr (c_mul_lo Zops b r1 h1 i js u1) (c_mul_lo Zops b r2 h2 i js u2).
Proof.
  induction js as [|j js IH]; intros u1 u2; cbn [c_mul_lo]; [apply wrel_ret; exact I|].
  eapply wrel_bind; [apply wrel_tick; reflexivity|]. intros _ _ _.
  eapply wrel_bind; [apply wrel_tick; reflexivity|]. intros _ _ _.
  eapply wrel_bind; [apply wrel_z_uchk|]. intros t1 t2 _.
  eapply wrel_bind; [apply wrel_z_uchk|]. intros v1 v2 _. apply IH.
Qed.
Lemma wrel_mul_hi b r1 r2 h1 h2 i js : forall u1 u2,
  wrel anyr (c_mul_hi Zops b r1 h1 i js u1) (c_mul_hi Zops b r2 h2 i js u2).
Proof.
  induction js as [|j js IH]; intros u1 u2; cbn [c_mul_hi]; [apply wrel_ret; exact I|].
  eapply wrel_bind; [apply wrel_tick; reflexivity|]. intros _ _ _.
  eapply wrel_bind; [apply wrel_z_uchk|]. intros t1 t2 _.
  eapply wrel_bind; [apply wrel_tick; reflexivity|]. intros _ _ _.
  eapply wrel_bind; [apply wrel_z_uchk|]. intros v1 v2 _.
  eapply wrel_bind; [apply wrel_z_uchk|]. intros w1 w2 _. apply IH.
Qed.
Lemma wrel_mul_rows b r1 r2 h1 h2 is :
  wrel leq (c_mul_rows Zops b r1 h1 is) (c_mul_rows Zops b r2 h2 is).
Proof.
  induction is as [|i is IH]; cbn [c_mul_rows]; [apply wrel_ret; exact eq_refl|].
  eapply wrel_bind; [apply wrel_mul_lo|]. intros u1 u2 _.
  eapply wrel_bind; [apply wrel_mul_hi|]. intros v1 v2 _.
  eapply wrel_bind; [apply IH|]. intros l1 l2 Hl. apply wrel_ret. unfold leq in *. cbn. congruence.
Qed.
Lemma wrel_squeeze_loop b n : forall h1 h2 u1 u2, leq h1 h2 ->
  wrel R1 (c_squeeze_loop Zops b n u1 h1) (c_squeeze_loop Zops b n u2 h2).
Proof.
  induction n as [|n IH]; intros h1 h2 u1 u2 Hh; [apply wrel_ret; exact Hh|].
  destruct h1 as [|x h1], h2 as [|y h2]; try discriminate Hh; cbn [c_squeeze_loop].
  - apply wrel_ret. exact eq_refl.
  - eapply wrel_bind; [apply wrel_z_uchk|]. intros v1 v2 _.
    eapply wrel_bind; [apply (IH h1 h2)|].
    + unfold leq in *. cbn in Hh. congruence.
    + intros [r1 w1] [r2 w2] Hr. apply wrel_ret. unfold R1, leq in *. cbn [fst length] in *. congruence.
Qed.
Lemma wrel_squeeze b h1 h2 : leq h1 h2 -> wrel leq (c_squeeze Zops b h1) (c_squeeze Zops b h2).
Proof.
  intros Hh. unfold c_squeeze.
  eapply wrel_bind; [apply wrel_squeeze_loop; exact Hh|]. intros [r1 u1] [r2 u2] Hr.
  eapply wrel_bind; [apply wrel_z_uchk|]. intros v1 v2 _.
  eapply wrel_bind; [apply wrel_z_uchk|]. intros w1 w2 _.
  eapply wrel_bind; [apply wrel_squeeze_loop; apply upd_leq; exact Hr|]. intros [s1 x1] [s2 x2] Hs.
  eapply wrel_bind; [apply wrel_z_uchk|]. intros y1 y2 _.
  apply wrel_ret. apply upd_leq. exact Hs.
Qed.
Definition Rpf (p q : c_polyfun (W := Z)) : Prop := leq (c_ph p) (c_ph q) /\ leq (c_pconst p) (c_pconst q).
Lemma wrel_poly_process b p1 p2 i1 i2 : Rpf p1 p2 -> leq i1 i2 ->
  wrel Rpf (c_poly_process Zops b p1 i1) (c_poly_process Zops b p2 i2).
Proof.
  intros [Hh Hc] Hi. unfold c_poly_process.
  eapply wrel_bind; [apply wrel_poly_add; [exact Hh|exact Hi]|]. intros h1 h2 H1.
  eapply wrel_bind.
  - unfold c_mulmod. eapply wrel_bind; [apply wrel_mul_rows|]. intros r1 r2 Hr. apply wrel_squeeze. exact Hr.
  - intros g1 g2 H2. apply wrel_ret. split; [exact H2|exact Hc].
Qed.
Lemma wrel_poly_write_value b p1 p2 : Rpf p1 p2 ->
  wrel leq (c_poly_write_value Zops b p1) (c_poly_write_value Zops b p2).
Proof.
  intros [Hh Hc]. unfold c_poly_write_value.
  eapply (wrel_bind leq).
  - unfold c_freeze. eapply wrel_bind; [apply wrel_poly_add; [exact Hh|exact eq_refl]|]. intros h1 h2 H1.
    apply wrel_ret. apply zipwith_leq; [exact H1|exact Hh].
  - intros h1 h2 H1. eapply wrel_bind; [apply wrel_poly_add; [exact H1|exact Hc]|]. intros g1 g2 H2.
    apply wrel_ret. apply map_leq. apply firstn_leq. exact H2.
Qed.
Lemma wrel_poly_chunks b cs1 cs2 : Forall2 leq cs1 cs2 -> forall p1 p2, Rpf p1 p2 ->
  wrel Rpf (c_poly_chunks Zops b p1 cs1) (c_poly_chunks Zops b p2 cs2).
Proof.
  induction 1 as [|x y cs1 cs2 Hxy _ IH]; intros p1 p2 Hp; cbn [c_poly_chunks];
    (eapply wrel_bind; [apply wrel_tick; reflexivity|]; intros _ _ _).
  - apply wrel_ret. exact Hp.
  - rewrite Hxy. apply (wrel_bind Rpf).
    + apply wrel_branch; [reflexivity| |apply wrel_poly_process; assumption].
      eapply wrel_bind; [apply wrel_write_slice; [exact eq_refl|reflexivity|exact Hxy]|]. intros b1 b2 Hb.
      apply wrel_poly_process; assumption.
    + intros q1 q2 Hq. apply IH. exact Hq.
Qed.
Lemma wrel_poly1305 b k1 k2 d1 d2 c1 c2 : leq k1 k2 -> leq d1 d2 -> leq c1 c2 ->
  wrel leq (c_poly1305 Zops b k1 d1 c1) (c_poly1305 Zops b k2 d2 c2).
Proof.
  intros Hk Hd Hc. unfold c_poly1305, len. rewrite Hd, Hc.
  eapply wrel_bind; [apply wrel_poly_chunks; [apply chunks_leq; exact Hd|]|].
  - split; [exact eq_refl|]. apply skipn_leq. exact Hk.
  - intros p1 p2 Hp.
    eapply wrel_bind; [apply wrel_p_uchk; reflexivity|]. intros cl ? <-.
    eapply wrel_bind; [apply wrel_poly_chunks; [apply chunks_leq; exact Hc|exact Hp]|]. intros q1 q2 Hq.
    eapply wrel_bind; [apply wrel_poly_process; [exact Hq|apply leq_refl]|]. intros s1 s2 Hs.
    apply wrel_poly_write_value. exact Hs.
Qed.
Lemma xor_chunk_leq k1 k2 i1 i2 o1 o2 : leq k1 k2 -> leq i1 i2 -> leq o1 o2 ->
  leq (c_xor_chunk Zops k1 i1 o1) (c_xor_chunk Zops k2 i2 o2).
Proof.
  unfold leq, c_xor_chunk, c_xorl. intros Hk Hi Ho.
  rewrite !app_length, !skipn_length, !firstn_length, !zipwith_length_min. congruence.
Qed.
Lemma rel_ctr_loop b blk1 blk2 (Hb : forall i, leq (blk1 i) (blk2 i)) ins1 ins2 :
  Forall2 leq ins1 ins2 -> forall outs1 outs2, Forall2 leq outs1 outs2 -> forall i,
  rel (Forall2 leq) (c_ctr_loop Zops b blk1 i ins1 outs1) (c_ctr_loop Zops b blk2 i ins2 outs2).
Proof.
  induction 1 as [|x y ins1 ins2 Hxy _ IH]; intros outs1 outs2 Ho i; destruct Ho as [|o1 o2 outs1 outs2 H1 H2];
    cbn [c_ctr_loop]; (eapply rel_bind; [apply rel_p_uchk; reflexivity|]; intros j ? <-);
    (eapply rel_bind; [apply rel_tick; reflexivity|]; intros _ _ _).
  - apply rel_ret. constructor.
  - apply rel_ret. constructor; assumption.
  - apply rel_ret. constructor.
  - eapply rel_bind; [apply IH; exact H2|]. intros r1 r2 Hr. apply rel_ret.
    constructor; [|exact Hr]. apply xor_chunk_leq; auto.
Qed.
Lemma rel_aead_process b k1 k2 i1 i2 o1 o2 : leq k1 k2 -> leq i1 i2 -> leq o1 o2 ->
  rel leq (c_aead_process Zops b k1 i1 o1) (c_aead_process Zops b k2 i2 o2).
Proof.
  intros Hk Hi Ho. unfold c_aead_process.
  eapply rel_bind; [apply rel_ctr_loop; [intros; apply chacha_block_leq; exact Hk|
    apply chunks_leq; exact Hi|apply chunks_leq; exact Ho]|].
  intros r1 r2 Hr. apply rel_ret. apply concat_leq. exact Hr.
Qed.
Lemma wrel_aead_tag b k1 k2 c1 c2 d1 d2 : leq k1 k2 -> leq c1 c2 -> leq d1 d2 ->
  wrel leq (c_aead_tag Zops b k1 c1 d1) (c_aead_tag Zops b k2 c2 d2).
Proof.
  intros Hk Hc Hd. unfold c_aead_tag. apply wrel_poly1305; [|exact Hd|exact Hc].
  apply firstn_leq. apply chacha_block_leq. exact Hk.
Qed.
(** No overflow check in the computation of the tag fails (shown in P_CtHist.v for byte strings). *)
Definition tag_returns b (k d : list Z) (ct : list Z) : Prop := exists t, result (c_aead_tag Zops b k ct d) = Ok t.
Lemma rel_aead_tag b k1 k2 c1 c2 d1 d2 : leq k1 k2 -> leq c1 c2 -> leq d1 d2 ->
  tag_returns b k1 d1 c1 -> tag_returns b k2 d2 c2 ->
  rel leq (c_aead_tag Zops b k1 c1 d1) (c_aead_tag Zops b k2 c2 d2).
Proof. intros Hk Hc Hd [t1 T1] [t2 T2]. eapply wrel_rel; [now apply wrel_aead_tag|exact T1|exact T2]. Qed.
Definition enc_tag_returns b (k i n d o : list Z) : Prop := forall c e,
  result (c_chacha_new Zops k n) = Ok c -> result (c_aead_process Zops b c i o) = Ok e ->
  length i = length o -> tag_returns b c d e.
Definition dec_tag_returns b (k i n d : list Z) : Prop := forall c, result (c_chacha_new Zops k n) = Ok c -> tag_returns b c d i.
Lemma rel_bind_ok {A B C D} (R : A -> B -> Prop) (S : C -> D -> Prop) m1 m2 k1 k2 :
  rel R m1 m2 -> (forall a1 a2, R a1 a2 -> result m1 = Ok a1 -> result m2 = Ok a2 -> rel S (k1 a1) (k2 a2)) ->
  rel S (bindM m1 k1) (bindM m2 k2).
Proof.
  intros [H1 HR] H2. destruct m1 as [t1 [a1|]], m2 as [t2 [a2|]]; cbn in H1, HR; try contradiction; subst t2.
  - destruct (H2 a1 a2 HR eq_refl eq_refl) as [Hk HS]. unfold bindM. cbn. split; cbn; [now rewrite Hk|exact HS].
  - unfold bindM. cbn. split; cbn; auto.
Qed.
Lemma rel_ccp_encrypt b k1 k2 i1 i2 n1 n2 d1 d2 o1 o2 :
  leq k1 k2 -> leq i1 i2 -> leq n1 n2 -> leq d1 d2 -> leq o1 o2 ->
  enc_tag_returns b k1 i1 n1 d1 o1 -> enc_tag_returns b k2 i2 n2 d2 o2 ->
  rel anyr (c_ccp_encrypt Zops b k1 i1 n1 d1 o1) (c_ccp_encrypt Zops b k2 i2 n2 d2 o2).
Proof.
  intros Hk Hi Hn Hd Ho T1 T2. unfold c_ccp_encrypt.
  eapply rel_bind_ok; [apply rel_assert; rewrite Hi, Ho; reflexivity|]. intros [] [] _ A1 A2.
  assert (L : forall c, result (assertM c) = Ok tt -> c = true) by (intros []; [reflexivity|discriminate]).
  eapply rel_bind_ok; [apply rel_chacha_new; [exact Hk|exact Hn]|]. intros c1 c2 Hc C1 C2.
  eapply rel_bind_ok; [apply rel_aead_process; [exact Hc|exact Hi|exact Ho]|]. intros e1 e2 He E1 E2.
  eapply rel_bind; [apply rel_aead_tag; [exact Hc|exact He|exact Hd| |]|].
  - apply (T1 c1 e1 C1 E1). apply Nat.eqb_eq. exact (L _ A1).
  - apply (T2 c2 e2 C2 E2). apply Nat.eqb_eq. exact (L _ A2).
  - intros t1 t2 _. apply rel_ret. exact I.
Qed.

(** Two runs of which none or both reject leave the same trace, and none or both panic. *)
Definition rejects {A} (r : res (A * bool)) : Prop := exists o, r = Ok (o, false).
Definition relv {A} (m1 m2 : M (A * bool)) : Prop :=
  (rejects (snd m1) <-> rejects (snd m2)) -> fst m1 = fst m2 /\ (snd m1 = Panic <-> snd m2 = Panic).
Lemma relv_bind {A B C} (R : A -> B -> Prop) m1 m2 (k1 : A -> M (C * bool)) k2 :
  rel R m1 m2 -> (forall a1 a2, R a1 a2 -> result m1 = Ok a1 -> result m2 = Ok a2 -> relv (k1 a1) (k2 a2)) ->
  relv (bindM m1 k1) (bindM m2 k2).
Proof.
  intros [H1 HR] H2. destruct m1 as [t1 [a1|]], m2 as [t2 [a2|]]; cbn in H1, HR; try contradiction; subst t2;
    unfold relv, bindM; cbn [fst snd].
  - intros V. destruct (H2 a1 a2 HR eq_refl eq_refl V) as [Hk HP]. now rewrite Hk.
  - intros _. split; [reflexivity|]. split; reflexivity.
Qed.
Lemma relv_verdict (x1 x2 y1 y2 : list Z) {A} (R : A -> A -> Prop) (p1 p2 : M A) o1 o2 :
  leq x1 x2 -> leq y1 y2 -> rel R p1 p2 ->
  relv (let* ok := c_verify_eq Zops x1 y1 in
        branch ok (let* o := p1 in ret (o, true)) (ret (o1, false)))
       (let* ok := c_verify_eq Zops x2 y2 in
        branch ok (let* o := p2 in ret (o, true)) (ret (o2, false))).
Proof.
  intros Hx Hy Hp.
  assert (VV : exists v1 v2, result (c_verify_eq Zops x1 y1) = Ok v1 /\ result (c_verify_eq Zops x2 y2) = Ok v2).
  { unfold c_verify_eq, c_verify_inner, result, branch, assertM, bindM. cbn [fst snd tick].
    destruct (length x1 =? length y1)%nat eqn:L1, (length x2 =? length y2)%nat eqn:L2; cbn; try rewrite L1; try rewrite L2; cbn; eauto. }
  destruct VV as (v1 & v2 & V1 & V2).
  pose proof (rel_verify_eq x1 x2 y1 y2) as Hv. unfold result, leak in *.
  assert (NR : forall (p : M A) o, ~ rejects (snd (branch true (let* o := p in ret (o, true)) (ret (o, false))))).
  { intros p o [a E]. unfold branch, bindM in E. destruct p as [t [z|]]; cbn in E; discriminate. }
  assert (RJ : forall (p : M A) o, rejects (snd (branch false (let* o := p in ret (o, true)) (ret (o, false))))).
  { intros p o. exists o. reflexivity. }
  assert (G : forall v, rel anyr (branch v (let* o := p1 in ret (o, true)) (ret (o1, false)))
                       (branch v (let* o := p2 in ret (o, true)) (ret (o2, false)))).
  { intros v. apply rel_branch; [reflexivity| |apply rel_ret; exact I].
    eapply rel_bind; [exact Hp|]. intros q1 q2 _. apply rel_ret. exact I. }
  pose proof (NR p1 o1) as N1. pose proof (NR p2 o2) as N2. pose proof (RJ p1 o1) as J1. pose proof (RJ p2 o2) as J2. clear NR RJ.
  revert G N1 N2 J1 J2.
  set (k1 := fun v => branch v (let* o := p1 in ret (o, true)) (ret (o1, false))).
  set (k2 := fun v => branch v (let* o := p2 in ret (o, true)) (ret (o2, false))).
  change ((forall v, rel anyr (k1 v) (k2 v)) -> ~ rejects (snd (k1 true)) -> ~ rejects (snd (k2 true)) ->
    rejects (snd (k1 false)) -> rejects (snd (k2 false)) -> relv (bindM (c_verify_eq Zops x1 y1) k1) (bindM (c_verify_eq Zops x2 y2) k2)).
  clearbody k1 k2. intros G N1 N2 J1 J2.
  destruct (c_verify_eq Zops x1 y1) as [t1 r1], (c_verify_eq Zops x2 y2) as [t2 r2]. cbn [fst snd] in *. subst r1 r2.
  unfold relv, bindM. cbn [fst snd]. intros V.
  assert (Ev : v1 = v2) by (destruct v1, v2; tauto). subst v2.
  rewrite (Hv v1 Hx Hy eq_refl eq_refl). destruct (G v1) as [Gt GR]. rewrite Gt. split; [reflexivity|].
  destruct (snd (k1 v1)), (snd (k2 v1)); cbn in GR; try contradiction; split; congruence.
Qed.
Lemma relv_ccp_decrypt b k1 k2 i1 i2 n1 n2 d1 d2 t1 t2 o1 o2 :
  leq k1 k2 -> leq i1 i2 -> leq n1 n2 -> leq d1 d2 -> leq t1 t2 -> leq o1 o2 ->
  dec_tag_returns b k1 i1 n1 d1 -> dec_tag_returns b k2 i2 n2 d2 ->
  relv (c_ccp_decrypt Zops b k1 i1 n1 d1 t1 o1) (c_ccp_decrypt Zops b k2 i2 n2 d2 t2 o2).
Proof.
  intros Hk Hi Hn Hd Ht Ho T1 T2. unfold c_ccp_decrypt. rewrite Hi, Ho.
  eapply relv_bind; [apply rel_assert; reflexivity|]. intros [] [] _ _ _.
  eapply relv_bind; [apply rel_chacha_new; [exact Hk|exact Hn]|]. intros c1 c2 Hc C1 C2.
  eapply relv_bind; [apply rel_aead_tag; [exact Hc|exact Hi|exact Hd|exact (T1 _ C1)|exact (T2 _ C2)]|]. intros e1 e2 He _ _.
  eapply relv_verdict; [exact He|exact Ht|]. apply rel_aead_process; [exact Hc|exact Hi|exact Ho].
Qed.

(** AES and GCM. *)
Section RelGcm.
Variable NK : nat.
Local Transparent c_sub_bytes c_shift_rows c_mix_columns.
Lemma sub_bytes_leq l m : leq l m -> leq (c_sub_bytes Zops l) (c_sub_bytes Zops m).
Proof. apply map_leq. Qed.
Lemma shift_rows_leq l m : leq l m -> leq (c_shift_rows Zops l) (c_shift_rows Zops m).
Proof. unfold c_shift_rows. intros H. repeat apply upd_leq. exact H. Qed.
Lemma mix_columns_leq l m : leq l m -> leq (c_mix_columns Zops l) (c_mix_columns Zops m).
Proof.
  intros H. unfold c_mix_columns. apply concat_leq.
  apply chunks_leq with (n := 4%nat) in H. induction H as [|x y l' m' _ _ IH]; constructor; auto.
  exact eq_refl.
Qed.
Local Opaque c_sub_bytes c_shift_rows c_mix_columns.
Lemma add_round_key_leq k1 k2 l m r : leq k1 k2 -> leq l m ->
  leq (c_add_round_key Zops k1 l r) (c_add_round_key Zops k2 m r).
Proof.
  intros Hk Hl. unfold c_add_round_key, c_round_key. apply zipwith_leq; [exact Hl|].
  apply firstn_leq. apply skipn_leq. exact Hk.
Qed.
Lemma permute_leq k1 k2 l m : leq k1 k2 -> leq l m -> leq (c_permute Zops NK k1 l) (c_permute Zops NK k2 m).
Proof.
  intros Hk Hl. unfold c_permute. cbv zeta.
  apply add_round_key_leq; [exact Hk|]. apply shift_rows_leq, sub_bytes_leq.
  generalize (add_round_key_leq k1 k2 l m 0 Hk Hl).
  generalize (c_add_round_key Zops k1 l 0) (c_add_round_key Zops k2 m 0).
  generalize (seq 1 (NK + 6 - 1)).
  induction l0 as [|r rs IH]; intros x y Hxy; [exact Hxy|].
  change (leq (fold_left (c_cipher_round Zops k1) rs (c_cipher_round Zops k1 x r))
              (fold_left (c_cipher_round Zops k2) rs (c_cipher_round Zops k2 y r))).
  apply IH. unfold c_cipher_round. apply add_round_key_leq; [exact Hk|].
  apply mix_columns_leq, shift_rows_leq, sub_bytes_leq. exact Hxy.
Qed.
Lemma expansion_loop_leq n : forall i s1 s2 r1 r2, leq s1 s2 ->
  leq (c_expansion_loop Zops NK n i s1 r1) (c_expansion_loop Zops NK n i s2 r2).
Proof.
  induction n as [|n IH]; intros i s1 s2 r1 r2 Hs; cbn [c_expansion_loop]; [exact Hs|].
  destruct (i mod NK =? 0)%nat; [apply IH; repeat apply upd_leq; exact Hs|].
  destruct ((6 <? NK)%nat && (i mod NK =? 4)%nat); apply IH; repeat apply upd_leq; exact Hs.
Qed.
Lemma rel_gcm_new k1 k2 : leq k1 k2 -> rel leq (c_gcm_new Zops NK k1) (c_gcm_new Zops NK k2).
Proof.
  intros Hk. unfold c_gcm_new, c_key_expansion. rewrite Hk.
  eapply rel_bind; [apply rel_assert; reflexivity|]. intros _ _ _.
  eapply rel_bind; [apply rel_write_slice; [apply leq_refl|reflexivity|exact Hk]|]. intros s1 s2 Hs.
  apply rel_ret. apply expansion_loop_leq. exact Hs.
Qed.
Lemma rel_ghash_chunks k1 k2 cs1 cs2 : Forall2 leq cs1 cs2 -> forall s1 s2,
  rel anyr (c_ghash_chunks Zops k1 s1 cs1) (c_ghash_chunks Zops k2 s2 cs2).
Proof.
  induction 1 as [|x y cs1 cs2 Hxy _ IH]; intros s1 s2; cbn [c_ghash_chunks];
    (eapply rel_bind; [apply rel_tick; reflexivity|]; intros _ _ _).
  - apply rel_ret. exact I.
  - rewrite Hxy. eapply (rel_bind anyr).
    + apply rel_branch; [reflexivity| |apply rel_ret; exact I].
      eapply rel_bind; [apply rel_write_slice; [apply leq_refl|reflexivity|exact Hxy]|]. intros b1 b2 _.
      apply rel_ret. exact I.
    + intros t1 t2 _. apply IH.
Qed.
Lemma rel_ghash b k1 k2 d1 d2 c1 c2 : leq d1 d2 -> leq c1 c2 ->
  rel leq (c_ghash Zops b k1 d1 c1) (c_ghash Zops b k2 d2 c2).
Proof.
  intros Hd Hc. unfold c_ghash, len. rewrite Hd, Hc.
  eapply rel_bind; [apply rel_ghash_chunks; apply chunks_leq; exact Hd|]. intros s1 s2 _.
  eapply rel_bind; [apply rel_p_uchk; reflexivity|]. intros cl ? <-.
  eapply rel_bind; [apply rel_ghash_chunks; apply chunks_leq; exact Hc|]. intros t1 t2 _.
  eapply rel_bind; [apply rel_p_uchk; reflexivity|]. intros dl ? <-.
  eapply rel_bind; [apply rel_p_uchk; reflexivity|]. intros cl' ? <-.
  apply rel_ret. unfold leq. cbn [w_be_encode Zops]. now rewrite !be_encode_len.
Qed.
Lemma rel_check_bounds (m1 m2 c1 c2 n1 n2 d1 d2 : list Z) : leq m1 m2 -> leq c1 c2 -> leq n1 n2 -> leq d1 d2 ->
  rel eq (c_check_bounds m1 c1 n1 d1) (c_check_bounds m2 c2 n2 d2).
Proof.
  intros Hm Hc Hn Hd. unfold c_check_bounds, len. rewrite Hm, Hc, Hn, Hd.
  eapply rel_bind; [apply rel_assert; reflexivity|]. intros _ _ _.
  eapply rel_bind; [apply rel_assert; reflexivity|]. intros _ _ _.
  eapply rel_bind; [apply rel_assert; reflexivity|]. intros _ _ _.
  apply rel_assert. reflexivity.
Qed.
Lemma rel_counter n1 n2 : leq n1 n2 -> rel leq (c_counter Zops n1) (c_counter Zops n2).
Proof.
  intros Hn. unfold c_counter. rewrite Hn.
  eapply rel_bind; [apply rel_assert; reflexivity|]. intros _ _ _.
  apply rel_write_slice; [apply leq_refl|reflexivity|exact Hn].
Qed.
Lemma gcm_block_leq k1 k2 c1 c2 i : leq k1 k2 -> leq c1 c2 ->
  leq (c_gcm_block Zops NK k1 c1 i) (c_gcm_block Zops NK k2 c2 i).
Proof.
  intros Hk Hc. unfold c_gcm_block. apply permute_leq; [exact Hk|].
  apply app_leq; [apply firstn_leq; exact Hc|apply leq_refl].
Qed.
Lemma rel_gcm_process b k1 k2 c1 c2 i1 i2 o1 o2 : leq k1 k2 -> leq c1 c2 -> leq i1 i2 -> leq o1 o2 ->
  rel leq (c_gcm_process Zops NK b k1 c1 i1 o1) (c_gcm_process Zops NK b k2 c2 i2 o2).
Proof.
  intros Hk Hc Hi Ho. unfold c_gcm_process.
  eapply rel_bind; [apply rel_ctr_loop; [intros; apply gcm_block_leq; [exact Hk|exact Hc]|
    apply chunks_leq; exact Hi|apply chunks_leq; exact Ho]|].
  intros r1 r2 Hr. apply rel_ret. apply concat_leq. exact Hr.
Qed.
Lemma rel_gcm_tag b k1 k2 e1 e2 d1 d2 c1 c2 : leq k1 k2 -> leq e1 e2 -> leq d1 d2 -> leq c1 c2 ->
  rel leq (c_gcm_tag Zops NK b k1 e1 d1 c1) (c_gcm_tag Zops NK b k2 e2 d2 c2).
Proof.
  intros Hk He Hd Hc. unfold c_gcm_tag.
  eapply rel_bind; [apply rel_ghash; [exact Hd|exact He]|]. intros h1 h2 Hh.
  apply rel_ret. apply zipwith_leq; [|exact Hh]. apply gcm_block_leq; [exact Hk|exact Hc].
Qed.
Lemma rel_gcm_encrypt b k1 k2 i1 i2 n1 n2 d1 d2 o1 o2 :
  leq k1 k2 -> leq i1 i2 -> leq n1 n2 -> leq d1 d2 -> leq o1 o2 ->
  rel anyr (c_gcm_encrypt Zops NK b k1 i1 n1 d1 o1) (c_gcm_encrypt Zops NK b k2 i2 n2 d2 o2).
Proof.
  intros Hk Hi Hn Hd Ho. unfold c_gcm_encrypt.
  eapply rel_bind; [apply rel_check_bounds; [exact Hi|exact Ho|exact Hn|exact Hd]|]. intros _ _ _.
  eapply rel_bind; [apply rel_counter; exact Hn|]. intros c1 c2 Hc.
  eapply rel_bind; [apply rel_gcm_process; [exact Hk|exact Hc|exact Hi|exact Ho]|]. intros e1 e2 He.
  eapply rel_bind; [apply rel_gcm_tag; [exact Hk|exact He|exact Hd|exact Hc]|]. intros t1 t2 _.
  apply rel_ret. exact I.
Qed.
Lemma relv_gcm_decrypt b k1 k2 i1 i2 n1 n2 d1 d2 t1 t2 o1 o2 :
  leq k1 k2 -> leq i1 i2 -> leq n1 n2 -> leq d1 d2 -> leq t1 t2 -> leq o1 o2 ->
  relv (c_gcm_decrypt Zops NK b k1 i1 n1 d1 t1 o1) (c_gcm_decrypt Zops NK b k2 i2 n2 d2 t2 o2).
Proof.
  intros Hk Hi Hn Hd Ht Ho. unfold c_gcm_decrypt.
  eapply relv_bind; [apply rel_check_bounds; [exact Ho|exact Hi|exact Hn|exact Hd]|]. intros [] [] _ _ _.
  eapply relv_bind; [apply rel_counter; exact Hn|]. intros c1 c2 Hc _ _.
  eapply relv_bind; [apply rel_gcm_tag; [exact Hk|exact Hi|exact Hd|exact Hc]|]. intros e1 e2 He _ _.
  eapply relv_verdict; [exact He|exact Ht|].
  apply rel_gcm_process; [exact Hk|exact Hc|exact Hi|exact Ho].
Qed.
End RelGcm.
