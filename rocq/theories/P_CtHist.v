(** The histories of HistCt.v. *)
From Verif Require Import Base M_Util M_Sha2 M_Hmac M_ChaCha20 Hist HistStream M_CtBase M_CtHash M_CtAead HistCt
  P_CtBase P_CtHash P_CtAead S_ChaCha.
From Verif Require P_ChaCha P_Ccp.

Lemma ct_hash_impl P alg H : ct_hash P alg H -> H = impl_function P alg.
Proof. now destruct 1. Qed.

Section Alg.
Variables (P : sha_params) (alg : algorithm).
Local Notation H := (impl_function P alg).
Lemma sim_updates' b parts : forall s, sim ofp (c_updates Zops P b s parts) (hash_updates H b (ofp s) parts).
Proof.
  induction parts as [|x parts IH]; intros s; cbn [c_updates hash_updates]; [apply sim_ret; reflexivity|].
  eapply sim_bind; [apply sim_hupdate|]. intros s'. apply IH.
Qed.
Lemma sim_hash_history b parts out :
  simi (c_hash_history Zops P alg b parts out)
    (let! s := hash_updates H b (hdefault H) parts in hwrite_digest H b s out).
Proof.
  unfold c_hash_history. rewrite <- hdefault_eq.
  eapply sim_bind; [apply sim_updates'|]. intros s. apply sim_hwrite_digest.
Qed.
Lemma sim_hmac_updates b parts : forall h, sim (ofh P alg) (c_hmac_updates Zops P b h parts) (hmac_updates H b (ofh P alg h) parts).
Proof.
  induction parts as [|x parts IH]; intros h; cbn [c_hmac_updates hmac_updates]; [apply sim_ret; reflexivity|].
  eapply sim_bind; [apply sim_hmac_update|]. intros h'. apply IH.
Qed.
Lemma sim_hmac_tag_of b key parts : simi (c_hmac_tag_of Zops P alg b key parts) (hmac_tag_of H b key parts).
Proof.
  unfold c_hmac_tag_of, hmac_tag_of.
  eapply sim_bind; [apply sim_hmac_new|]. intros h.
  eapply sim_bind; [apply sim_hmac_updates|]. intros h'.
  eapply sim_bind; [apply sim_hmac_tag|]. intros t. apply sim_tag_deref.
Qed.
Lemma rel_hash_history b l1 l2 o1 o2 : Forall2 leq l1 l2 -> leq o1 o2 ->
  rel leq (c_hash_history Zops P alg b l1 o1) (c_hash_history Zops P alg b l2 o2).
Proof.
  intros Hl Ho. unfold c_hash_history. eapply rel_bind; [apply rel_updates; [exact Hl|apply Rp_refl]|].
  intros s1 s2 Hs. now apply rel_hwrite_digest.
Qed.
Lemma rel_hmac_updates b l1 l2 : Forall2 leq l1 l2 -> forall h1 h2, Rh h1 h2 ->
  rel Rh (c_hmac_updates Zops P b h1 l1) (c_hmac_updates Zops P b h2 l2).
Proof.
  induction 1 as [|x y l1 l2 Hxy _ IH]; intros h1 h2 Hh; cbn [c_hmac_updates]; [now apply rel_ret|].
  eapply rel_bind; [now apply rel_hmac_update|]. intros g1 g2 Hg. now apply IH.
Qed.
Lemma rel_hmac_tag_of b k1 k2 l1 l2 : leq k1 k2 -> Forall2 leq l1 l2 ->
  rel leq (c_hmac_tag_of Zops P alg b k1 l1) (c_hmac_tag_of Zops P alg b k2 l2).
Proof.
  intros Hk Hl. unfold c_hmac_tag_of.
  eapply rel_bind; [now apply rel_hmac_new|]. intros h1 h2 Hh.
  eapply rel_bind; [now apply rel_hmac_updates|]. intros g1 g2 Hg.
  eapply rel_bind; [now apply rel_hmac_tag|]. intros t1 t2 Ht. now apply rel_tag_deref.
Qed.
(** Verification: none or both reject, then the traces are the same, and none or both panic. *)
Definition relb (m1 m2 : M bool) : Prop :=
  (result m1 = Ok false <-> result m2 = Ok false) -> leak m1 = leak m2 /\ (result m1 = Panic <-> result m2 = Panic).
Lemma relb_bind {A B} (R : A -> B -> Prop) m1 m2 (k1 : A -> M bool) (k2 : B -> M bool) :
  rel R m1 m2 -> (forall a1 a2, R a1 a2 -> relb (k1 a1) (k2 a2)) -> relb (bindM m1 k1) (bindM m2 k2).
Proof.
  intros [H1 HR] H2. destruct m1 as [t1 [a1|]], m2 as [t2 [a2|]]; cbn in H1, HR; try contradiction; subst t2;
    unfold relb, bindM, leak, result; cbn [fst snd].
  - intros V. destruct (H2 a1 a2 HR V) as [Hk HP]. unfold leak in Hk. now rewrite Hk.
  - intros _. split; [reflexivity|]. split; reflexivity.
Qed.
Lemma relb_verify_eq x1 x2 y1 y2 : leq x1 x2 -> leq y1 y2 -> relb (c_verify_eq Zops x1 y1) (c_verify_eq Zops x2 y2).
Proof.
  intros Hx Hy V.
  assert (VV : exists v1 v2, result (c_verify_eq Zops x1 y1) = Ok v1 /\ result (c_verify_eq Zops x2 y2) = Ok v2).
  { unfold c_verify_eq, c_verify_inner, result, branch, assertM, bindM. cbn [fst snd tick].
    destruct (length x1 =? length y1)%nat eqn:L1, (length x2 =? length y2)%nat eqn:L2; cbn; try rewrite L1; try rewrite L2; cbn; eauto. }
  destruct VV as (v1 & v2 & V1 & V2).
  assert (E : v1 = v2) by (rewrite V1, V2 in V; destruct v1, v2; try reflexivity; destruct V as [Va Vb]; [specialize (Vb eq_refl)|specialize (Va eq_refl)]; congruence).
  subst v2. split; [exact (rel_verify_eq x1 x2 y1 y2 v1 Hx Hy V1 V2)|]. rewrite V1, V2. split; discriminate.
Qed.
Lemma rel_hmac_verify b k1 k2 m1 m2 t1 t2 : leq k1 k2 -> leq m1 m2 -> leq t1 t2 ->
  relb (c_hmac_verify Zops P alg b k1 m1 t1) (c_hmac_verify Zops P alg b k2 m2 t2).
Proof.
  intros Hk Hm Ht. unfold c_hmac_verify.
  eapply relb_bind; [apply rel_hmac_new, Hk|]. intros h1 h2 Hh.
  eapply relb_bind; [apply rel_hmac_update; [exact Hh|exact Hm]|]. intros g1 g2 Hg.
  eapply relb_bind; [apply rel_hmac_tag; exact Hg|]. intros e1 e2 He.
  eapply relb_bind; [apply rel_tag_deref; exact He|]. intros f1 f2 Hf.
  apply relb_verify_eq; [exact Hf|exact Ht].
Qed.
End Alg.

(** ChaCha20 streams. *)
Definition ofop (o : c_op (W := Z)) : stream_op := match o with CNext => OpNext | CProcess i out => OpEncrypt i out end.
Definition ofout (o : c_out (W := Z)) : stream_out := match o with CByte x => OutByte x | CBuf l => OutBuf l end.
Definition ofr (x : c_out (W := Z) * c_stream (W := Z)) : stream_out * stream := (ofout (fst x), ofs (snd x)).
Definition ofrs (x : list (c_out (W := Z)) * c_stream (W := Z)) : list stream_out * stream :=
  (map ofout (fst x), ofs (snd x)).
Lemma sim_run_op b s o : sim ofr (c_run_op Zops b s o) (run_op b (ofs s) (ofop o)).
Proof.
  destruct o as [|i out]; cbn [c_run_op run_op ofop].
  - eapply sim_bind; [apply sim_stream_next|]. intros [x s']. apply sim_ret. reflexivity.
  - eapply sim_bind; [apply sim_stream_process|]. intros [x s']. apply sim_ret. reflexivity.
Qed.
Lemma sim_run_ops b l : forall s, sim ofrs (c_run_ops Zops b s l) (run_ops b (ofs s) (map ofop l)).
Proof.
  induction l as [|o l IH]; intros s; cbn [c_run_ops run_ops map]; [apply sim_ret; reflexivity|].
  eapply sim_bind; [apply sim_run_op|]. intros [x s'].
  eapply sim_bind; [apply IH|]. intros [xs s'']. apply sim_ret. reflexivity.
Qed.
Lemma sim_stream_history b key nonce l :
  sim (map ofout) (c_stream_history Zops b key nonce l)
    (let! s := stream_new key nonce in let! (xs, s) := run_ops b s (map ofop l) in Ok xs).
Proof.
  unfold c_stream_history. eapply sim_bind; [apply sim_stream_new|]. intros s.
  eapply sim_bind; [apply sim_run_ops|]. intros [xs s']. apply sim_ret. reflexivity.
Qed.

Definition Rop (o1 o2 : c_op (W := Z)) : Prop :=
  match o1, o2 with
  | CNext, CNext => True
  | CProcess i1 u1, CProcess i2 u2 => leq i1 i2 /\ leq u1 u2
  | _, _ => False
  end.
Lemma rel_run_op b s1 s2 o1 o2 : Rs s1 s2 -> Rop o1 o2 ->
  rel (Rs2 anyr) (c_run_op Zops b s1 o1) (c_run_op Zops b s2 o2).
Proof.
  intros Hs Ho. destruct o1 as [|i1 u1], o2 as [|i2 u2]; cbn [Rop] in Ho; try contradiction; cbn [c_run_op].
  - eapply rel_bind; [apply rel_stream_next, Hs|]. intros [x1 t1] [x2 t2] [_ Ht]. apply rel_ret. split; [exact I|exact Ht].
  - destruct Ho as [Hi Hu]. eapply rel_bind; [apply rel_stream_process; [exact Hs|exact Hi|exact Hu]|].
    intros [x1 t1] [x2 t2] [_ Ht]. apply rel_ret. split; [exact I|exact Ht].
Qed.
Lemma rel_run_ops b l1 l2 : Forall2 Rop l1 l2 -> forall s1 s2, Rs s1 s2 ->
  rel (Rs2 anyr) (c_run_ops Zops b s1 l1) (c_run_ops Zops b s2 l2).
Proof.
  induction 1 as [|o1 o2 l1 l2 Ho _ IH]; intros s1 s2 Hs; cbn [c_run_ops].
  - apply rel_ret. split; [exact I|exact Hs].
  - eapply rel_bind; [apply rel_run_op; [exact Hs|exact Ho]|]. intros [x1 t1] [x2 t2] [_ Ht].
    eapply rel_bind; [apply IH; exact Ht|]. intros [y1 w1] [y2 w2] [_ Hw]. apply rel_ret. split; [exact I|exact Hw].
Qed.
Lemma rel_stream_history b k1 k2 n1 n2 l1 l2 : leq k1 k2 -> leq n1 n2 -> Forall2 Rop l1 l2 ->
  rel anyr (c_stream_history Zops b k1 n1 l1) (c_stream_history Zops b k2 n2 l2).
Proof.
  intros Hk Hn Hl. unfold c_stream_history. eapply rel_bind; [apply rel_stream_new; [exact Hk|exact Hn]|].
  intros s1 s2 Hs. eapply rel_bind; [apply rel_run_ops; [exact Hl|exact Hs]|].
  intros [y1 w1] [y2 w2] _. apply rel_ret. exact I.
Qed.

(** ChaCha20-Poly1305: no overflow check fails while the tag is computed. *)
Section CcpTag.
Variables (key nonce data : list Z).
Hypothesis Hk : chacha_key key.
Hypothesis Bn : bytes nonce.
Hypothesis Hd : is_slice data.
Lemma c_new_words c : result (c_chacha_new Zops key nonce) = Ok c -> length nonce = 12%nat /\ c = P_ChaCha.chacha_words key nonce.
Proof.
  intros E. rewrite (simi_res _ _ (sim_chacha_new key nonce)) in E. destruct Hk as [Lk _].
  destruct (Nat.eq_dec (length nonce) 12) as [Ln|Ln].
  - rewrite (P_Ccp.cipher_ok key nonce Lk Ln) in E. injection E as <-. auto.
  - exfalso. revert E. rewrite P_ChaCha.chacha_new_eq, Lk. apply Nat.eqb_neq in Ln. rewrite Ln. cbn. discriminate.
Qed.
Lemma dec_returns b ct : is_slice ct -> dec_tag_returns b key ct nonce data.
Proof.
  intros [Bc Lc] c E. destruct (c_new_words c E) as [Ln ->]. destruct Hk as [Lk Bk], Hd as [Bd Ld].
  destruct (P_Ccp.tag_ok key nonce Lk Ln Bk Bn data ct Bd Bc Ld Lc) as (t & T & _). exists t.
  rewrite (simi_res _ _ (sim_aead_tag b (P_ChaCha.chacha_words key nonce) ct data)). exact (T b).
Qed.
Lemma enc_returns b msg out : is_slice msg -> enc_tag_returns b key msg nonce data out.
Proof.
  intros [Bm Lm] c e E P Hl. apply (dec_returns b e); [|exact E]. destruct (c_new_words c E) as [Ln ->]. destruct Hk as [Lk Bk].
  rewrite (simi_res _ _ (sim_aead_process b (P_ChaCha.chacha_words key nonce) msg out)) in P.
  assert (Ee : e = P_Ccp.crypt key nonce msg).
  { destruct b; [destruct (Z.le_gt_cases (len msg) P_Ccp.LIM) as [L|L]|].
    - rewrite (P_Ccp.process_ok key nonce Lk Ln Bk Bn Checked msg out Hl (or_intror L)) in P. now injection P as <-.
    - rewrite (P_Ccp.process_panic key nonce Lk Ln Bk Bn msg out Hl L) in P. discriminate.
    - rewrite (P_Ccp.process_ok key nonce Lk Ln Bk Bn Unchecked msg out Hl (or_introl eq_refl)) in P. now injection P as <-. }
  rewrite Ee. split; [apply P_Ccp.crypt_bytes, Bm|]. unfold len in *. now rewrite P_Ccp.crypt_length.
Qed.
End CcpTag.
