(** Overflow checks can only turn a result into a panic: every function of the model, run with overflow checks on, panics or gives the
    result it gives with overflow checks off. *)
From Verif Require Import Base M_Util M_Sha2 M_Hmac M_Hkdf M_ChaCha20 M_Poly1305 M_Aes M_Ghash M_Gcm M_Slp M_FeProg M_ScProg M_Curve25519 M_EdConst M_Ed25519.

Definition refines {A} (r r' : res A) : Prop := r = Panic \/ r = r'.
Lemma refines_refl {A} (r : res A) : refines r r. Proof. right. reflexivity. Qed.
Lemma refines_panic {A} (r : res A) : refines Panic r. Proof. left. reflexivity. Qed.
Lemma refines_bind {A B} (r r' : res A) (f f' : A -> res B) : refines r r' -> (forall a, refines (f a) (f' a)) -> refines (bind r f) (bind r' f').
Proof. intros [H|H] G; rewrite H; [left; reflexivity|]. destruct r' as [a|]; [exact (G a)|left; reflexivity]. Qed.
Lemma uchk_m w v : refines (uchk Checked w v) (uchk Unchecked w v).
Proof. unfold uchk. destruct (_ && _)%bool; [apply refines_refl|apply refines_panic]. Qed.
Lemma schk_m w v : refines (schk Checked w v) (schk Unchecked w v).
Proof. unfold schk. destruct (_ && _)%bool; [apply refines_refl|apply refines_panic]. Qed.
Create HintDb mono discriminated.
#[local] Hint Constants Opaque : mono.
#[local] Hint Transparent fe : mono.
#[local] Hint Resolve uchk_m schk_m : mono.
Local Opaque uchk schk.
Ltac mono1 :=
  lazymatch goal with
  | |- refines (bind ?x _) (bind ?x' _) => first [constr_eq x x'; apply refines_bind; [apply refines_refl|intros ?] | apply refines_bind; [|intros ?] ]
  | |- refines (Ok _) (Ok _) => apply refines_refl
  | |- refines Panic _ => apply refines_panic
  | |- refines (if ?c then _ else _) (if ?c then _ else _) => destruct c
  | |- refines (match ?c with _ => _ end) (match ?c with _ => _ end) => destruct c
  | |- refines ?x ?y => first [constr_eq x y; apply refines_refl | solve [auto with mono nocore] ]
  end.
Ltac mono := cbv zeta; repeat (mono1; cbv beta zeta).

Lemma eval_m s e : refines (eval Checked s e) (eval Unchecked s e).
Proof. revert s. induction e; intros; cbn [eval]; mono. Qed.
#[local] Hint Resolve eval_m : mono. Local Opaque eval.
Lemma exec_m p s : refines (exec Checked p s) (exec Unchecked p s).
Proof. revert s. induction p as [|[] ]; intros; cbn [exec]; mono. Qed.
#[local] Hint Resolve exec_m : mono. Local Opaque exec.
Lemma evals_m s es : refines (evals Checked s es) (evals Unchecked s es).
Proof. revert s. induction es; intros; cbn [evals]; mono. Qed.
#[local] Hint Resolve evals_m : mono. Local Opaque evals.
Lemma run_m p vs : refines (run Checked p vs) (run Unchecked p vs).
Proof. unfold run. mono. Qed.
#[local] Hint Resolve run_m : mono. Local Opaque run.
Lemma verify_32_m x y : refines (verify_32 Checked x y) (verify_32 Unchecked x y).
Proof. unfold verify_32. mono. Qed.
#[local] Hint Resolve verify_32_m : mono. Local Opaque verify_32.
Lemma limbs2_m op f g : refines (limbs2 Checked op f g) (limbs2 Unchecked op f g).
Proof. revert g. induction f as [|? f IH]; intros [|? g]; intros; cbn [limbs2]; mono. Qed.
#[local] Hint Resolve limbs2_m : mono. Local Opaque limbs2.
Lemma fe_add_m f g : refines (fe_add Checked f g) (fe_add Unchecked f g).
Proof. unfold fe_add. mono. Qed.
#[local] Hint Resolve fe_add_m : mono. Local Opaque fe_add.
Lemma fe_sub_m f g : refines (fe_sub Checked f g) (fe_sub Unchecked f g).
Proof. unfold fe_sub. mono. Qed.
#[local] Hint Resolve fe_sub_m : mono. Local Opaque fe_sub.
Lemma fe_subtract_from_m f g : refines (fe_subtract_from Checked f g) (fe_subtract_from Unchecked f g).
Proof. unfold fe_subtract_from. mono. Qed.
#[local] Hint Resolve fe_subtract_from_m : mono. Local Opaque fe_subtract_from.
Lemma fe_mul_m f g : refines (fe_mul Checked f g) (fe_mul Unchecked f g).
Proof. unfold fe_mul. mono. Qed.
#[local] Hint Resolve fe_mul_m : mono. Local Opaque fe_mul.
Lemma fe_sq_m f : refines (fe_sq Checked f) (fe_sq Unchecked f).
Proof. unfold fe_sq. mono. Qed.
#[local] Hint Resolve fe_sq_m : mono. Local Opaque fe_sq.
Lemma fe_mul121666_m f : refines (fe_mul121666 Checked f) (fe_mul121666 Unchecked f).
Proof. unfold fe_mul121666. mono. Qed.
#[local] Hint Resolve fe_mul121666_m : mono. Local Opaque fe_mul121666.
Lemma fe_from_bytes_m s : refines (fe_from_bytes Checked s) (fe_from_bytes Unchecked s).
Proof. unfold fe_from_bytes. mono. Qed.
#[local] Hint Resolve fe_from_bytes_m : mono. Local Opaque fe_from_bytes.
Lemma sq_times_m n f : refines (sq_times Checked n f) (sq_times Unchecked n f).
Proof. revert f. induction n; intros; cbn [sq_times]; mono. Qed.
#[local] Hint Resolve sq_times_m : mono. Local Opaque sq_times.
Lemma square_many_m f n : refines (square_many Checked f n) (square_many Unchecked f n).
Proof. unfold square_many. mono. Qed.
#[local] Hint Resolve square_many_m : mono. Local Opaque square_many.
Lemma fe_invert_m z : refines (fe_invert Checked z) (fe_invert Unchecked z).
Proof. unfold fe_invert. mono. Qed.
#[local] Hint Resolve fe_invert_m : mono. Local Opaque fe_invert.
Lemma fe_pow22523_m z : refines (fe_pow22523 Checked z) (fe_pow22523 Unchecked z).
Proof. unfold fe_pow22523. mono. Qed.
#[local] Hint Resolve fe_pow22523_m : mono. Local Opaque fe_pow22523.
Lemma q_step_m h q k : refines (q_step Checked h q k) (q_step Unchecked h q k).
Proof. unfold q_step. mono. Qed.
#[local] Hint Resolve q_step_m : mono. Local Opaque q_step.
Lemma fe_write_bytes_m h : refines (fe_write_bytes Checked h) (fe_write_bytes Unchecked h).
Proof. unfold fe_write_bytes. mono. Qed.
#[local] Hint Resolve fe_write_bytes_m : mono. Local Opaque fe_write_bytes.
Lemma ladder_step_m x1 st bit : refines (ladder_step Checked x1 st bit) (ladder_step Unchecked x1 st bit).
Proof. unfold ladder_step. mono. Qed.
#[local] Hint Resolve ladder_step_m : mono. Local Opaque ladder_step.
Lemma ladder_loop_m e x1 n st : refines (ladder_loop Checked e x1 n st) (ladder_loop Unchecked e x1 n st).
Proof. revert st. induction n; intros; cbn [ladder_loop]; mono. Qed.
#[local] Hint Resolve ladder_loop_m : mono. Local Opaque ladder_loop.
Lemma scalarmult_m n p : refines (scalarmult Checked n p) (scalarmult Unchecked n p).
Proof. unfold scalarmult. mono. Qed.
#[local] Hint Resolve scalarmult_m : mono. Local Opaque scalarmult.
Lemma x_gen_pk_m sk : refines (x_gen_pk Checked sk) (x_gen_pk Unchecked sk).
Proof. unfold x_gen_pk. mono. Qed.
#[local] Hint Resolve x_gen_pk_m : mono. Local Opaque x_gen_pk.
Lemma x_dh_m pk sk : refines (x_dh Checked pk sk) (x_dh Unchecked pk sk).
Proof. unfold x_dh. mono. Qed.
#[local] Hint Resolve x_dh_m : mono. Local Opaque x_dh.
Lemma proc_update_m P p input : refines (proc_update P Checked p input) (proc_update P Unchecked p input).
Proof. unfold proc_update. mono. Qed.
#[local] Hint Resolve proc_update_m : mono. Local Opaque proc_update.
Lemma pad_m P p : refines (pad P Checked p) (pad P Unchecked p).
Proof. unfold pad. mono. Qed.
#[local] Hint Resolve pad_m : mono. Local Opaque pad.
Lemma proc_write_digest_m P p o : refines (proc_write_digest P Checked p o) (proc_write_digest P Unchecked p o).
Proof. unfold proc_write_digest. mono. Qed.
#[local] Hint Resolve proc_write_digest_m : mono. Local Opaque proc_write_digest.
(** The hash functions of the crate. *)
Definition hmono (H : HashFunction) : Prop :=
  (forall s l, refines (hupdate H Checked s l) (hupdate H Unchecked s l)) /\ (forall s o, refines (hwrite_digest H Checked s o) (hwrite_digest H Unchecked s o)).
Lemma impl_mono P alg : hmono (impl_function P alg).
Proof.
  split; [exact (proc_update_m P)|]. intros s o. cbn [impl_function hwrite_digest]. apply refines_bind; [apply refines_refl|]. intros _. exact (proc_write_digest_m P s o).
Qed.
Lemma hupdate_m H (M : hmono H) s l : refines (hupdate H Checked s l) (hupdate H Unchecked s l). Proof. apply M. Qed.
Lemma hwrite_digest_m H (M : hmono H) s l : refines (hwrite_digest H Checked s l) (hwrite_digest H Unchecked s l). Proof. apply M. Qed.
#[local] Hint Resolve hupdate_m hwrite_digest_m : mono.

Lemma hash_wrapper_m H (M : hmono H) m : refines (hash_wrapper H Checked m) (hash_wrapper H Unchecked m).
Proof. unfold hash_wrapper. mono. Qed.
#[local] Hint Resolve hash_wrapper_m : mono. Local Opaque hash_wrapper.
Lemma update_each_m H (M : hmono H) s l : refines (update_each H Checked s l) (update_each H Unchecked s l).
Proof. revert s. induction l; intros; cbn [update_each]; mono. Qed.
#[local] Hint Resolve update_each_m : mono. Local Opaque update_each.
Lemma keyed_hash_function_m H (M : hmono H) k p : refines (keyed_hash_function H Checked k p) (keyed_hash_function H Unchecked k p).
Proof. unfold keyed_hash_function. mono. Qed.
#[local] Hint Resolve keyed_hash_function_m : mono. Local Opaque keyed_hash_function.
Lemma hmac_new_m H (M : hmono H) k : refines (hmac_new H Checked k) (hmac_new H Unchecked k).
Proof. unfold hmac_new. mono. Qed.
#[local] Hint Resolve hmac_new_m : mono. Local Opaque hmac_new.
Lemma hmac_update_m H (M : hmono H) h i : refines (hmac_update H Checked h i) (hmac_update H Unchecked h i).
Proof. unfold hmac_update. mono. Qed.
#[local] Hint Resolve hmac_update_m : mono. Local Opaque hmac_update.
Lemma write_tag_m H (M : hmono H) h o : refines (write_tag H Checked h o) (write_tag H Unchecked h o).
Proof. unfold write_tag. mono. Qed.
#[local] Hint Resolve write_tag_m : mono. Local Opaque write_tag.
Lemma hmac_tag_m H (M : hmono H) h : refines (hmac_tag H Checked h) (hmac_tag H Unchecked h).
Proof. unfold hmac_tag. mono. Qed.
#[local] Hint Resolve hmac_tag_m : mono. Local Opaque hmac_tag.
Lemma hmac_wrapper_m H (M : hmono H) k m : refines (hmac_wrapper H Checked k m) (hmac_wrapper H Unchecked k m).
Proof. unfold hmac_wrapper. mono. Qed.
#[local] Hint Resolve hmac_wrapper_m : mono. Local Opaque hmac_wrapper.
Lemma hmac_verify_m H (M : hmono H) k m t : refines (hmac_verify H Checked k m t) (hmac_verify H Unchecked k m t).
Proof. unfold hmac_verify. mono. Qed.
#[local] Hint Resolve hmac_verify_m : mono. Local Opaque hmac_verify.
Lemma extract_m H (M : hmono H) s i p : refines (extract H Checked s i p) (extract H Unchecked s i p).
Proof. unfold extract. mono. Qed.
#[local] Hint Resolve extract_m : mono. Local Opaque extract.
Lemma expand_loop_m H (M : hmono H) prk info cs : forall i h, refines (expand_loop H Checked prk info i h cs) (expand_loop H Unchecked prk info i h cs).
Proof. induction cs; intros; cbn [expand_loop]; mono. Qed.
#[local] Hint Resolve expand_loop_m : mono. Local Opaque expand_loop.
Lemma expand_m H (M : hmono H) prk info okm : refines (expand H Checked prk info okm) (expand H Unchecked prk info okm).
Proof. unfold expand. mono. Qed.
#[local] Hint Resolve expand_m : mono. Local Opaque expand.
Lemma stream_next_m s : refines (stream_next Checked s) (stream_next Unchecked s).
Proof. unfold stream_next. mono. Qed.
#[local] Hint Resolve stream_next_m : mono. Local Opaque stream_next.
Lemma process_loop_m o i s : refines (process_loop Checked s o i) (process_loop Unchecked s o i).
Proof. revert s i. induction o as [|? o IH]; intros s [|? i]; intros; cbn [process_loop]; mono. Qed.
#[local] Hint Resolve process_loop_m : mono. Local Opaque process_loop.
Lemma stream_process_m s i o : refines (stream_process Checked s i o) (stream_process Unchecked s i o).
Proof. unfold stream_process. mono. Qed.
#[local] Hint Resolve stream_process_m : mono. Local Opaque stream_process.
Lemma add_loop_m u h c : refines (add_loop Checked u h c) (add_loop Unchecked u h c).
Proof. revert u c. induction h as [|? h IH]; intros u [|? c]; intros; cbn [add_loop]; mono. Qed.
#[local] Hint Resolve add_loop_m : mono. Local Opaque add_loop.
Lemma poly_add_m h c l : refines (poly_add Checked h c l) (poly_add Unchecked h c l).
Proof. unfold poly_add. mono. Qed.
#[local] Hint Resolve poly_add_m : mono. Local Opaque poly_add.
Lemma mul_lo_m r h i js u : refines (mul_lo Checked r h i js u) (mul_lo Unchecked r h i js u).
Proof. revert u. induction js; intros; cbn [mul_lo]; mono. Qed.
#[local] Hint Resolve mul_lo_m : mono. Local Opaque mul_lo.
Lemma mul_hi_m r h i js u : refines (mul_hi Checked r h i js u) (mul_hi Unchecked r h i js u).
Proof. revert u. induction js; intros; cbn [mul_hi]; mono. Qed.
#[local] Hint Resolve mul_hi_m : mono. Local Opaque mul_hi.
Lemma mul_rows_m r h is : refines (mul_rows Checked r h is) (mul_rows Unchecked r h is).
Proof. revert h. induction is; intros; cbn [mul_rows]; mono. Qed.
#[local] Hint Resolve mul_rows_m : mono. Local Opaque mul_rows.
Lemma squeeze_loop_m n u h : refines (squeeze_loop Checked n u h) (squeeze_loop Unchecked n u h).
Proof. revert u h. induction n as [|n IH]; intros u [|? h]; intros; cbn [squeeze_loop]; mono. Qed.
#[local] Hint Resolve squeeze_loop_m : mono. Local Opaque squeeze_loop.
Lemma squeeze_m h : refines (squeeze Checked h) (squeeze Unchecked h).
Proof. unfold squeeze. mono. Qed.
#[local] Hint Resolve squeeze_m : mono. Local Opaque squeeze.
Lemma mulmod_m r h : refines (mulmod Checked r h) (mulmod Unchecked r h).
Proof. unfold mulmod. mono. Qed.
#[local] Hint Resolve mulmod_m : mono. Local Opaque mulmod.
Lemma poly_process_m p i : refines (poly_process Checked p i) (poly_process Unchecked p i).
Proof. unfold poly_process. mono. Qed.
#[local] Hint Resolve poly_process_m : mono. Local Opaque poly_process.
Lemma freeze_m h : refines (freeze Checked h) (freeze Unchecked h).
Proof. unfold freeze. mono. Qed.
#[local] Hint Resolve freeze_m : mono. Local Opaque freeze.
Lemma poly_write_value_m p : refines (poly_write_value Checked p) (poly_write_value Unchecked p).
Proof. unfold poly_write_value. mono. Qed.
#[local] Hint Resolve poly_write_value_m : mono. Local Opaque poly_write_value.
Lemma poly_chunks_m p cs : refines (poly_chunks Checked p cs) (poly_chunks Unchecked p cs).
Proof. revert p. induction cs; intros; cbn [poly_chunks]; mono. Qed.
#[local] Hint Resolve poly_chunks_m : mono. Local Opaque poly_chunks.
Lemma poly1305_m k d c : refines (poly1305 Checked k d c) (poly1305 Unchecked k d c).
Proof. unfold poly1305. mono. Qed.
#[local] Hint Resolve poly1305_m : mono. Local Opaque poly1305.
Lemma ctr_loop_m blk i ins outs : refines (ctr_loop Checked blk i ins outs) (ctr_loop Unchecked blk i ins outs).
Proof. revert i outs. induction ins as [|? ins IH]; intros i [|? outs]; intros; cbn [ctr_loop]; mono. Qed.
#[local] Hint Resolve ctr_loop_m : mono. Local Opaque ctr_loop.
Lemma aead_process_m c i o : refines (aead_process Checked c i o) (aead_process Unchecked c i o).
Proof. unfold aead_process. mono. Qed.
#[local] Hint Resolve aead_process_m : mono. Local Opaque aead_process.
Lemma aead_tag_m c t d : refines (aead_tag Checked c t d) (aead_tag Unchecked c t d).
Proof. unfold aead_tag. mono. Qed.
#[local] Hint Resolve aead_tag_m : mono. Local Opaque aead_tag.
Lemma ccp_encrypt_m k i n d o : refines (ccp_encrypt Checked k i n d o) (ccp_encrypt Unchecked k i n d o).
Proof. unfold ccp_encrypt. mono. Qed.
#[local] Hint Resolve ccp_encrypt_m : mono. Local Opaque ccp_encrypt.
Lemma ccp_decrypt_m k i n d t o : refines (ccp_decrypt Checked k i n d t o) (ccp_decrypt Unchecked k i n d t o).
Proof. unfold ccp_decrypt. mono. Qed.
#[local] Hint Resolve ccp_decrypt_m : mono. Local Opaque ccp_decrypt.
Lemma ghash_m k d c : refines (ghash Checked k d c) (ghash Unchecked k d c).
Proof. unfold ghash. mono. Qed.
#[local] Hint Resolve ghash_m : mono. Local Opaque ghash.
Lemma gcm_process_m E k c i o : refines (gcm_process E Checked k c i o) (gcm_process E Unchecked k c i o).
Proof. unfold gcm_process. mono. Qed.
#[local] Hint Resolve gcm_process_m : mono. Local Opaque gcm_process.
Lemma gcm_tag_m E k c d n : refines (gcm_tag E Checked k c d n) (gcm_tag E Unchecked k c d n).
Proof. unfold gcm_tag. mono. Qed.
#[local] Hint Resolve gcm_tag_m : mono. Local Opaque gcm_tag.
Lemma gcm_encrypt_m E k i n d o : refines (gcm_encrypt E Checked k i n d o) (gcm_encrypt E Unchecked k i n d o).
Proof. unfold gcm_encrypt. mono. Qed.
#[local] Hint Resolve gcm_encrypt_m : mono. Local Opaque gcm_encrypt.
Lemma gcm_decrypt_m E k i n d t o : refines (gcm_decrypt E Checked k i n d t o) (gcm_decrypt E Unchecked k i n d t o).
Proof. unfold gcm_decrypt. mono. Qed.
#[local] Hint Resolve gcm_decrypt_m : mono. Local Opaque gcm_decrypt.
Lemma fe_is_negative_m f : refines (fe_is_negative Checked f) (fe_is_negative Unchecked f).
Proof. unfold fe_is_negative. mono. Qed.
#[local] Hint Resolve fe_is_negative_m : mono. Local Opaque fe_is_negative.
Lemma fe_is_nonzero_m f : refines (fe_is_nonzero Checked f) (fe_is_nonzero Unchecked f).
Proof. unfold fe_is_nonzero. mono. Qed.
#[local] Hint Resolve fe_is_nonzero_m : mono. Local Opaque fe_is_nonzero.
Lemma fe_neg_m f : refines (fe_neg Checked f) (fe_neg Unchecked f).
Proof. induction f; intros; cbn [fe_neg]; mono. Qed.
#[local] Hint Resolve fe_neg_m : mono. Local Opaque fe_neg.
Lemma fe_twice_sq_m f : refines (fe_twice_sq Checked f) (fe_twice_sq Unchecked f).
Proof. unfold fe_twice_sq. mono. Qed.
#[local] Hint Resolve fe_twice_sq_m : mono. Local Opaque fe_twice_sq.
Lemma sc_muladd_m a b c : refines (sc_muladd Checked a b c) (sc_muladd Unchecked a b c).
Proof. unfold sc_muladd. mono. Qed.
#[local] Hint Resolve sc_muladd_m : mono. Local Opaque sc_muladd.
Lemma sc_reduce_m s : refines (sc_reduce Checked s) (sc_reduce Unchecked s).
Proof. unfold sc_reduce. mono. Qed.
#[local] Hint Resolve sc_reduce_m : mono. Local Opaque sc_reduce.
Lemma ge_add_m p q : refines (ge_add Checked p q) (ge_add Unchecked p q).
Proof. unfold ge_add. mono. Qed.
#[local] Hint Resolve ge_add_m : mono. Local Opaque ge_add.
Lemma ge_sub_m p q : refines (ge_sub Checked p q) (ge_sub Unchecked p q).
Proof. unfold ge_sub. mono. Qed.
#[local] Hint Resolve ge_sub_m : mono. Local Opaque ge_sub.
Lemma ge_madd_m p q : refines (ge_madd Checked p q) (ge_madd Unchecked p q).
Proof. unfold ge_madd. mono. Qed.
#[local] Hint Resolve ge_madd_m : mono. Local Opaque ge_madd.
Lemma ge_msub_m p q : refines (ge_msub Checked p q) (ge_msub Unchecked p q).
Proof. unfold ge_msub. mono. Qed.
#[local] Hint Resolve ge_msub_m : mono. Local Opaque ge_msub.
Lemma p1p1_to_p2_m p : refines (p1p1_to_p2 Checked p) (p1p1_to_p2 Unchecked p).
Proof. unfold p1p1_to_p2. mono. Qed.
#[local] Hint Resolve p1p1_to_p2_m : mono. Local Opaque p1p1_to_p2.
Lemma p1p1_to_p3_m p : refines (p1p1_to_p3 Checked p) (p1p1_to_p3 Unchecked p).
Proof. unfold p1p1_to_p3. mono. Qed.
#[local] Hint Resolve p1p1_to_p3_m : mono. Local Opaque p1p1_to_p3.
Lemma p2_dbl_m p : refines (p2_dbl Checked p) (p2_dbl Unchecked p).
Proof. unfold p2_dbl. mono. Qed.
#[local] Hint Resolve p2_dbl_m : mono. Local Opaque p2_dbl.
Lemma p3_dbl_m p : refines (p3_dbl Checked p) (p3_dbl Unchecked p).
Proof. unfold p3_dbl. mono. Qed.
#[local] Hint Resolve p3_dbl_m : mono. Local Opaque p3_dbl.
Lemma ge_bytes_m X Y Z : refines (ge_bytes Checked X Y Z) (ge_bytes Unchecked X Y Z).
Proof. unfold ge_bytes. mono. Qed.
#[local] Hint Resolve ge_bytes_m : mono. Local Opaque ge_bytes.
Lemma p2_to_bytes_m p : refines (p2_to_bytes Checked p) (p2_to_bytes Unchecked p).
Proof. unfold p2_to_bytes. mono. Qed.
#[local] Hint Resolve p2_to_bytes_m : mono. Local Opaque p2_to_bytes.
Lemma p3_tobytes_m p : refines (p3_tobytes Checked p) (p3_tobytes Unchecked p).
Proof. unfold p3_tobytes. mono. Qed.
#[local] Hint Resolve p3_tobytes_m : mono. Local Opaque p3_tobytes.
Lemma p3_to_cached_m p : refines (p3_to_cached Checked p) (p3_to_cached Unchecked p).
Proof. unfold p3_to_cached. mono. Qed.
#[local] Hint Resolve p3_to_cached_m : mono. Local Opaque p3_to_cached.
Lemma select_m pos e : refines (select Checked pos e) (select Unchecked pos e).
Proof. unfold select. mono. Qed.
#[local] Hint Resolve select_m : mono. Local Opaque select.
Lemma recode_m e : forall c, refines (recode Checked c e) (recode Unchecked c e).
Proof.
  induction e as [|x e IH]; intros c; [apply refines_refl|]. destruct e as [|y e]; [cbn [recode]; mono|].
  change (refines (let! v := schk Checked 8 (x + c) in let! c := schk Checked 8 (v + 8) in
    let! v := schk Checked 8 (v - shl8 (Z.shiftr c 4) 4) in let! r := recode Checked (Z.shiftr c 4) (y :: e) in Ok (v :: r))
    (let! v := schk Unchecked 8 (x + c) in let! c := schk Unchecked 8 (v + 8) in
    let! v := schk Unchecked 8 (v - shl8 (Z.shiftr c 4) 4) in let! r := recode Unchecked (Z.shiftr c 4) (y :: e) in Ok (v :: r))). mono.
Qed.
#[local] Hint Resolve recode_m : mono. Local Opaque recode.
Lemma base_loop_m e n i h : refines (base_loop Checked e n i h) (base_loop Unchecked e n i h).
Proof. revert i h. induction n; intros; cbn [base_loop]; mono. Qed.
#[local] Hint Resolve base_loop_m : mono. Local Opaque base_loop.
Lemma from_scalarmult_base_m a : refines (from_scalarmult_base Checked a) (from_scalarmult_base Unchecked a).
Proof. unfold from_scalarmult_base. mono. Qed.
#[local] Hint Resolve from_scalarmult_base_m : mono. Local Opaque from_scalarmult_base.
Lemma slide_inner_m i n r : refines (slide_inner Checked i n r) (slide_inner Unchecked i n r).
Proof. revert r. induction n; intros; cbn [slide_inner]; mono. Qed.
#[local] Hint Resolve slide_inner_m : mono. Local Opaque slide_inner.
Lemma slide_outer_m n r : refines (slide_outer Checked n r) (slide_outer Unchecked n r).
Proof. revert r. induction n; intros; cbn [slide_outer]; mono. Qed.
#[local] Hint Resolve slide_outer_m : mono. Local Opaque slide_outer.
Lemma slide_m a : refines (slide Checked a) (slide Unchecked a).
Proof. unfold slide. mono. Qed.
#[local] Hint Resolve slide_m : mono. Local Opaque slide.
Lemma odd_table_m a2 c n : refines (odd_table Checked a2 c n) (odd_table Unchecked a2 c n).
Proof. revert c. induction n; intros; cbn [odd_table]; mono. Qed.
#[local] Hint Resolve odd_table_m : mono. Local Opaque odd_table.
Lemma add_digit_a_m ai d t : refines (add_digit_a Checked ai d t) (add_digit_a Unchecked ai d t).
Proof. unfold add_digit_a. mono. Qed.
#[local] Hint Resolve add_digit_a_m : mono. Local Opaque add_digit_a.
Lemma add_digit_b_m d t : refines (add_digit_b Checked d t) (add_digit_b Unchecked d t).
Proof. unfold add_digit_b. mono. Qed.
#[local] Hint Resolve add_digit_b_m : mono. Local Opaque add_digit_b.
Lemma double_loop_m ai al bl n r : refines (double_loop Checked ai al bl n r) (double_loop Unchecked ai al bl n r).
Proof. revert r. induction n; intros; cbn [double_loop]; mono. Qed.
#[local] Hint Resolve double_loop_m : mono. Local Opaque double_loop.
Lemma from_double_scalarmult_m a ga bs : refines (from_double_scalarmult Checked a ga bs) (from_double_scalarmult Unchecked a ga bs).
Proof. unfold from_double_scalarmult. mono. Qed.
#[local] Hint Resolve from_double_scalarmult_m : mono. Local Opaque from_double_scalarmult.
Lemma from_bytes_negate_m s : refines (from_bytes_negate Checked s) (from_bytes_negate Unchecked s).
Proof. unfold from_bytes_negate. mono. Qed.
#[local] Hint Resolve from_bytes_negate_m : mono. Local Opaque from_bytes_negate.
Lemma sha512_m m : refines (sha512 Checked m) (sha512 Unchecked m).
Proof. apply hash_wrapper_m. apply impl_mono. Qed.
#[local] Hint Resolve sha512_m : mono. Local Opaque sha512.
Lemma ed_gen_pk_m sk : refines (ed_gen_pk Checked sk) (ed_gen_pk Unchecked sk).
Proof. unfold ed_gen_pk. mono. Qed.
#[local] Hint Resolve ed_gen_pk_m : mono. Local Opaque ed_gen_pk.
Lemma parts_m parts : forall s s', refines s s' ->
  refines (fold_left (fun h x => let! h := h in hupdate Sha512 Checked h x) parts s) (fold_left (fun h x => let! h := h in hupdate Sha512 Unchecked h x) parts s').
Proof.
  induction parts as [|x parts IH]; intros s s' R; [exact R|]. cbn [fold_left]. apply IH. apply refines_bind; [exact R|]. intros h. apply hupdate_m, impl_mono.
Qed.
Lemma sha512_parts_m parts : refines (sha512_parts Checked parts) (sha512_parts Unchecked parts).
Proof. unfold sha512_parts. apply refines_bind; [apply parts_m, refines_refl|]. intros h. apply hwrite_digest_m, impl_mono. Qed.
#[local] Hint Resolve sha512_parts_m : mono. Local Opaque sha512_parts.
Lemma ed_sign_m m sk : refines (ed_sign Checked m sk) (ed_sign Unchecked m sk).
Proof. unfold ed_sign. mono. Qed.
#[local] Hint Resolve ed_sign_m : mono. Local Opaque ed_sign.
Lemma ed_verify_m m s pk : refines (ed_verify Checked m s pk) (ed_verify Unchecked m s pk).
Proof. unfold ed_verify. mono. Qed.
#[local] Hint Resolve ed_verify_m : mono. Local Opaque ed_verify.
