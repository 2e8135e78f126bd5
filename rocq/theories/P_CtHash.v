(** The leakage model of the hash functions, HMAC and HKDF computes what
    M_Sha2.v, M_Hmac.v and M_Hkdf.v compute, and its trace depends on lengths
    only. *)
From Verif Require Import Base M_Util M_Sha2 M_Hmac M_Hkdf M_CtBase M_CtHash P_CtBase.

Lemma match_fst_snd {A B C} (p : A * B) (f : A -> B -> C) :
  (let (a, b) := p in f a b) = f (fst p) (snd p).
Proof. destruct p; reflexivity. Qed.

(** * Results *)

Definition ofp (p : c_processor (W := Z)) : processor :=
  {| p_state := cp_state p; p_buffer := cp_buffer p; p_offset := cp_offset p; p_len := cp_len p |}.

Lemma c_process_eq P st input : c_process Zops P st input = process P st input.
Proof. reflexivity. Qed.
Lemma map_id_lit l : map (w_lit Zops) l = l.
Proof. exact (map_id l). Qed.

Lemma sim_verify_inner x y : simi (c_verify_inner Zops x y) (verify_inner x y).
Proof.
  unfold c_verify_inner, verify_inner. eapply sim_bind; [apply sim_assert|]. intros []. reflexivity.
Qed.
Lemma sim_verify_eq x y :
  simi (c_verify_eq Zops x y)
    (if (length x =? length y)%nat then let! d := verify_inner x y in Ok (d =? 0) else Ok false).
Proof.
  unfold c_verify_eq. apply sim_branch; [|reflexivity].
  eapply sim_bind; [apply sim_verify_inner|]. intros d. reflexivity.
Qed.

Section Proc.
Variable P : sha_params.

Lemma sim_update_loop cs : forall p,
  sim ofp (c_update_loop Zops P cs p) (update_loop P cs (ofp p)).
Proof.
  induction cs as [|c cs IH]; intros p; cbn [c_update_loop update_loop].
  - apply sim_tick. apply sim_ret. reflexivity.
  - apply sim_tick. apply sim_branch.
    + eapply sim_bind; [apply sim_write_slice|]. intros buf. apply IH.
    + rewrite c_process_eq. apply IH.
Qed.
Lemma sim_proc_update b p input :
  sim ofp (c_proc_update Zops P b p input) (proc_update P b (ofp p) input).
Proof.
  unfold c_proc_update, proc_update.
  eapply sim_bind; [apply sim_p_uchk|]. intros l.
  eapply sim_bind; [apply sim_assert|]. intros [].
  apply sim_branch.
  - apply sim_branch.
    + eapply sim_bind; [apply sim_write_slice|]. intros buf. apply sim_ret. reflexivity.
    + eapply sim_bind; [apply sim_write_slice|]. intros buf. rewrite c_process_eq. apply sim_update_loop.
  - apply sim_update_loop.
Qed.
Lemma sim_pad b p : sim ofp (c_pad Zops P b p) (pad P b (ofp p)).
Proof.
  unfold c_pad, pad. eapply sim_bind; [apply sim_write_slice|]. intros buf. cbv beta zeta.
  change (p_offset (ofp p)) with (cp_offset p).
  change (p_state (ofp p)) with (cp_state p).
  change (p_len (ofp p)) with (cp_len p).
  unfold branch.
  destruct (p_block P - 2 * w_bytes P <? S (cp_offset p))%nat.
  - change (sim ofp
      (let* _ := tick (EBranch true) in
       let* bits := p_uchk b 64 (8 * cp_len p) in
       let* buf0 := c_write_slice (c_zero_range Zops 0 (p_block P - 8)
            (c_zero_range Zops (S (cp_offset p)) (length buf) buf))
            (p_block P - 8) (map (w_lit Zops) (be_encode 8 bits)) in
       ret {| cp_state := c_process Zops P (cp_state p) (c_zero_range Zops (S (cp_offset p)) (length buf) buf);
              cp_buffer := buf0; cp_offset := 0; cp_len := cp_len p |})
      (let! bits := uchk b 64 (8 * cp_len p) in
       let! buf0 := write_slice (zero_range 0 (p_block P - 8) (zero_range (S (cp_offset p)) (length buf) buf))
            (p_block P - 8) (be_encode 8 bits) in
       Ok {| p_state := process P (cp_state p) (zero_range (S (cp_offset p)) (length buf) buf);
              p_buffer := buf0; p_offset := 0; p_len := cp_len p |})).
    apply sim_tick.
    eapply sim_bind; [apply sim_p_uchk|]. intros bits. rewrite map_id_lit.
    eapply sim_bind; [apply sim_write_slice|]. intros buf0. apply sim_ret. reflexivity.
  - change (sim ofp
      (let* _ := tick (EBranch false) in
       let* bits := p_uchk b 64 (8 * cp_len p) in
       let* buf0 := c_write_slice (c_zero_range Zops (S (cp_offset p)) (p_block P - 8) buf)
            (p_block P - 8) (map (w_lit Zops) (be_encode 8 bits)) in
       ret {| cp_state := cp_state p;
              cp_buffer := buf0; cp_offset := S (cp_offset p); cp_len := cp_len p |})
      (let! bits := uchk b 64 (8 * cp_len p) in
       let! buf0 := write_slice (zero_range (S (cp_offset p)) (p_block P - 8) buf)
            (p_block P - 8) (be_encode 8 bits) in
       Ok {| p_state := cp_state p;
              p_buffer := buf0; p_offset := S (cp_offset p); p_len := cp_len p |})).
    apply sim_tick.
    eapply sim_bind; [apply sim_p_uchk|]. intros bits. rewrite map_id_lit.
    eapply sim_bind; [apply sim_write_slice|]. intros buf0. apply sim_ret. reflexivity.
Qed.
Lemma sim_proc_write_digest b p output :
  simi (c_proc_write_digest Zops P b p output) (proc_write_digest P b (ofp p) output).
Proof.
  unfold c_proc_write_digest, proc_write_digest.
  eapply sim_bind; [apply sim_pad|]. intros q.
  eapply sim_bind; [apply sim_assert|]. intros [].
  eapply sim_bind; [apply sim_assert|]. intros [].
  reflexivity.
Qed.
End Proc.

Section Alg.
Variable P : sha_params.
Variable alg : algorithm.
Let H := impl_function P alg.
Definition ofh (h : c_hmac (W := Z)) : hmac (impl_function P alg) :=
  {| inner := (ofp (c_inner h) : hstate (impl_function P alg)); outer := ofp (c_outer h) |}.
Definition oft (t : c_tag (W := Z)) : tag := {| t_buffer := ct_buffer t; t_size := ct_size t |}.

Lemma hdefault_eq : ofp (c_hdefault Zops P alg) = hdefault H.
Proof. unfold ofp, c_hdefault, c_proc_new, H, hdefault, impl_function, proc_new. cbn -[repeat]. now rewrite map_id. Qed.
Lemma sim_hupdate b p input :
  sim ofp (c_hupdate Zops P b p input) (hupdate H b (ofp p) input).
Proof. apply sim_proc_update. Qed.
Lemma sim_hwrite_digest b p output :
  simi (c_hwrite_digest Zops P alg b p output) (hwrite_digest H b (ofp p) output).
Proof.
  unfold c_hwrite_digest, H, hwrite_digest, impl_function.
  eapply sim_bind; [apply sim_assert|]. intros []. apply sim_proc_write_digest.
Qed.
Lemma sim_hash_wrapper b m : simi (c_hash_wrapper Zops P alg b m) (hash_wrapper H b m).
Proof.
  unfold c_hash_wrapper, hash_wrapper. rewrite <- hdefault_eq.
  eapply sim_bind; [apply sim_hupdate|]. intros s. apply sim_hwrite_digest.
Qed.
Lemma sim_updates b parts : forall s,
  sim ofp (c_updates Zops P b s parts)
    (fold_left (fun h x => let! h := h in hupdate H b h x) parts (Ok (ofp s))).
Proof.
  assert (Hp : forall parts, fold_left (fun h x => let! h := h in hupdate H b h x) parts Panic = Panic).
  { induction parts0 as [|x q IH]; cbn; auto. }
  induction parts as [|x parts IH]; intros s; cbn [c_updates fold_left]; [apply sim_ret; reflexivity|].
  cbn [bind]. pose proof (sim_hupdate b s x) as Hs. unfold sim in *. unfold bindM.
  destruct (c_hupdate Zops P b s x) as [t [a|]]; cbn [snd fst rmap] in *.
  - rewrite <- Hs. apply IH.
  - rewrite <- Hs, Hp. reflexivity.
Qed.
Lemma sim_tag_deref t : simi (c_tag_deref t) (tag_deref (oft t)).
Proof. apply sim_slice. Qed.
Lemma sim_update_each b l : forall s,
  sim ofp (c_update_each Zops P b s l) (update_each H b (ofp s) l).
Proof.
  induction l as [|x l IH]; intros s; cbn [c_update_each update_each]; apply sim_tick.
  - apply sim_ret. reflexivity.
  - eapply sim_bind; [apply sim_hupdate|]. intros s'. apply IH.
Qed.
Lemma sim_keyed b key pad :
  sim ofp (c_keyed_hash_function Zops P alg b key pad) (keyed_hash_function H b key pad).
Proof.
  unfold c_keyed_hash_function, keyed_hash_function. rewrite <- hdefault_eq.
  eapply sim_bind; [apply sim_update_each|]. intros s. apply sim_update_each.
Qed.
Lemma sim_hmac_new b key : sim ofh (c_hmac_new Zops P alg b key) (hmac_new H b key).
Proof.
  unfold c_hmac_new, hmac_new.
  eapply (sim_bind (fun x => x)).
  - apply sim_branch; [|reflexivity].
    eapply sim_bind; [apply sim_slice|]. intros out. rewrite <- hdefault_eq.
    eapply sim_bind; [apply sim_hupdate|]. intros s. apply sim_hwrite_digest.
  - intros k. eapply sim_bind; [apply sim_keyed|]. intros i.
    eapply sim_bind; [apply sim_keyed|]. intros o. apply sim_ret. reflexivity.
Qed.
Lemma sim_hmac_update b h input :
  sim ofh (c_hmac_update Zops P b h input) (hmac_update H b (ofh h) input).
Proof.
  unfold c_hmac_update, hmac_update. eapply sim_bind; [apply sim_hupdate|]. intros i. reflexivity.
Qed.
Lemma sim_write_tag b h output :
  simi (c_write_tag Zops P alg b h output) (write_tag H b (ofh h) output).
Proof.
  unfold c_write_tag, write_tag. eapply sim_bind; [apply sim_assert|]. intros [].
  eapply sim_bind; [apply sim_hwrite_digest|]. intros o1.
  eapply sim_bind; [apply sim_hupdate|]. intros o. apply sim_hwrite_digest.
Qed.
Lemma sim_hmac_tag b h : sim oft (c_hmac_tag Zops P alg b h) (hmac_tag H b (ofh h)).
Proof.
  unfold c_hmac_tag, hmac_tag.
  eapply sim_bind; [apply sim_slice|]. intros o.
  eapply sim_bind; [apply sim_write_tag|]. intros o1.
  eapply sim_bind; [apply sim_write_slice|]. intros o2. reflexivity.
Qed.
Lemma sim_hmac_wrapper b key m :
  simi (c_hmac_wrapper Zops P alg b key m) (hmac_wrapper H b key m).
Proof.
  unfold c_hmac_wrapper, hmac_wrapper. eapply sim_bind; [apply sim_hmac_new|]. intros h.
  eapply sim_bind; [apply sim_hmac_update|]. intros h'. apply sim_write_tag.
Qed.
Lemma sim_hmac_verify b key m tg :
  simi (c_hmac_verify Zops P alg b key m tg) (hmac_verify H b key m tg).
Proof.
  unfold c_hmac_verify, hmac_verify. eapply sim_bind; [apply sim_hmac_new|]. intros h.
  eapply sim_bind; [apply sim_hmac_update|]. intros h'.
  eapply sim_bind; [apply sim_hmac_tag|]. intros t.
  eapply sim_bind; [apply sim_tag_deref|]. intros e. apply sim_verify_eq.
Qed.
Lemma sim_extract b salt ikm prk :
  simi (c_extract Zops P alg b salt ikm prk) (extract H b salt ikm prk).
Proof.
  unfold c_extract, extract. eapply sim_bind; [apply sim_assert|]. intros [].
  eapply sim_bind; [apply sim_hmac_new|]. intros h.
  eapply sim_bind; [apply sim_hmac_update|]. intros h'.
  eapply sim_bind; [apply sim_hmac_tag|]. intros t.
  eapply sim_bind; [apply sim_tag_deref|]. intros e.
  eapply sim_bind; [apply sim_assert|]. intros []. reflexivity.
Qed.
Lemma sim_expand_loop b prk info cs : forall i h,
  simi (c_expand_loop Zops P alg b prk info i h cs) (expand_loop H b prk info i (ofh h) cs).
Proof.
  induction cs as [|c cs IH]; intros i h; cbn [c_expand_loop expand_loop].
  - eapply sim_bind; [apply sim_p_uchk|]. intros inext. apply sim_tick. reflexivity.
  - eapply sim_bind; [apply sim_p_uchk|]. intros inext. apply sim_tick.
    eapply sim_bind; [apply sim_hmac_update|]. intros h1.
    eapply sim_bind; [apply sim_hmac_update|]. intros h2.
    eapply sim_bind; [apply sim_hmac_tag|]. intros t.
    eapply sim_bind; [apply sim_tag_deref|]. intros e.
    apply sim_branch.
    + eapply sim_bind; [apply sim_slice|]. intros t'. reflexivity.
    + eapply sim_bind; [apply sim_assert|]. intros [].
      eapply sim_bind; [apply sim_hmac_new|]. intros h3.
      eapply sim_bind; [apply sim_hmac_update|]. intros h4.
      eapply sim_bind; [apply IH|]. intros rest. reflexivity.
Qed.
Lemma sim_expand b prk info okm :
  simi (c_expand Zops P alg b prk info okm) (expand H b prk info okm).
Proof.
  unfold c_expand, expand. eapply sim_bind; [apply sim_assert|]. intros [].
  eapply sim_bind; [apply sim_assert|]. intros [].
  eapply sim_bind; [apply sim_hmac_new|]. intros h.
  eapply sim_bind; [apply sim_assert|]. intros [].
  eapply sim_bind; [apply sim_expand_loop|]. intros cs. reflexivity.
Qed.
End Alg.

(** * Traces *)

Definition Rp (p q : c_processor (W := Z)) : Prop :=
  leq (cp_buffer p) (cp_buffer q) /\ cp_offset p = cp_offset q /\ cp_len p = cp_len q.
Definition Rh (p q : c_hmac (W := Z)) : Prop :=
  Rp (c_inner p) (c_inner q) /\ Rp (c_outer p) (c_outer q).
Definition Rt (p q : c_tag (W := Z)) : Prop :=
  leq (ct_buffer p) (ct_buffer q) /\ ct_size p = ct_size q.

Lemma rel_verify_inner (x1 x2 y1 y2 : list Z) :
  leq x1 x2 -> leq y1 y2 -> rel anyr (c_verify_inner Zops x1 y1) (c_verify_inner Zops x2 y2).
Proof.
  unfold leq. intros Hx Hy. unfold c_verify_inner. rewrite Hx, Hy.
  eapply rel_bind; [apply rel_assert; reflexivity|]. intros _ _ _. apply rel_ret. exact I.
Qed.
(** The comparison discloses its outcome and nothing else. *)
Lemma rel_verify_eq (x1 x2 y1 y2 : list Z) v :
  leq x1 x2 -> leq y1 y2 ->
  result (c_verify_eq Zops x1 y1) = Ok v -> result (c_verify_eq Zops x2 y2) = Ok v ->
  leak (c_verify_eq Zops x1 y1) = leak (c_verify_eq Zops x2 y2).
Proof.
  unfold leq. intros Hx Hy. unfold c_verify_eq, result, leak. rewrite Hx, Hy.
  destruct (length x2 =? length y2)%nat eqn:E; [|reflexivity].
  unfold c_verify_inner. rewrite Hx, Hy, E. unfold assertM, branch, bindM. cbn.
  intros [= ->] [= ->]. reflexivity.
Qed.

Section RelProc.
Variable P : sha_params.
Lemma process_len st1 input1 st2 input2 :
  leq (c_process Zops P st1 input1) (c_process Zops P st2 input2).
Proof.
  unfold leq, c_process.
  destruct (fold_left _ _ _) as [[[[[[[a b] c] d] e] f] g] h].
  destruct (fold_left _ _ _) as [[[[[[[a' b'] c'] d'] e'] f'] g'] h']. reflexivity.
Qed.
Lemma rel_update_loop cs1 cs2 : Forall2 leq cs1 cs2 -> forall p1 p2, Rp p1 p2 ->
  rel Rp (c_update_loop Zops P cs1 p1) (c_update_loop Zops P cs2 p2).
Proof.
  induction 1 as [|x y cs1 cs2 Hxy _ IH]; intros p1 p2 Hp; cbn [c_update_loop].
  - eapply rel_bind; [apply rel_tick; reflexivity|]. intros _ _ _. now apply rel_ret.
  - eapply rel_bind; [apply rel_tick; reflexivity|]. intros _ _ _.
    destruct Hp as (Hb & Ho & Hl).
    apply rel_branch; [unfold leq in *; congruence| |].
    + eapply rel_bind; [apply rel_write_slice; [assumption|reflexivity|assumption]|].
      intros b1 b2 Hbb. apply IH. repeat split; cbn; auto.
    + apply IH. repeat split; cbn; auto.
Qed.
Lemma firstn_leq {A B} n (l : list A) (m : list B) : leq l m -> leq (firstn n l) (firstn n m).
Proof. unfold leq. intros. rewrite !firstn_length. congruence. Qed.
Lemma skipn_leq {A B} n (l : list A) (m : list B) : leq l m -> leq (skipn n l) (skipn n m).
Proof. unfold leq. intros. rewrite !skipn_length. congruence. Qed.
Lemma rel_proc_update b p1 p2 i1 i2 : Rp p1 p2 -> leq i1 i2 ->
  rel Rp (c_proc_update Zops P b p1 i1) (c_proc_update Zops P b p2 i2).
Proof.
  intros (Hb & Ho & Hl) Hi. unfold c_proc_update.
  eapply rel_bind; [apply rel_p_uchk; unfold len; rewrite Hl, Hi; reflexivity|].
  intros l ? <-.
  eapply rel_bind; [apply rel_assert; rewrite Ho, Hb; reflexivity|]. intros _ _ _.
  rewrite Hb, Ho.
  apply rel_branch; [reflexivity| |].
  - apply rel_branch; [now rewrite Hi| |].
    + eapply rel_bind; [apply rel_write_slice; auto|]. intros b1 b2 Hbb.
      apply rel_ret. repeat split; cbn; auto.
    + eapply rel_bind; [apply rel_write_slice; auto using firstn_leq|]. intros b1 b2 Hbb.
      rewrite Hbb. apply rel_update_loop; [apply chunks_leq; now apply skipn_leq|].
      repeat split; cbn; auto.
  - apply rel_update_loop; [now apply chunks_leq|]. repeat split; cbn; auto.
Qed.
Lemma zero_range_leq i j b1 b2 : leq b1 b2 -> leq (c_zero_range Zops i j b1) (c_zero_range Zops i j b2).
Proof.
  unfold leq, c_zero_range. intros Hb.
  rewrite !app_length, !firstn_length, !skipn_length, !repeat_length. congruence.
Qed.
Lemma rel_pad b p1 p2 : Rp p1 p2 -> rel Rp (c_pad Zops P b p1) (c_pad Zops P b p2).
Proof.
  intros (Hb & Ho & Hl). unfold c_pad. rewrite Ho, Hl.
  eapply rel_bind; [apply rel_write_slice; [exact Hb|reflexivity|reflexivity]|].
  intros b1 b2 Hbb.
  apply (rel_bind (fun x y => leq (snd (fst x)) (snd (fst y)) /\ snd x = snd y)).
  - apply rel_branch; [reflexivity| |].
    + apply rel_ret. split; [|reflexivity]. unfold fst, snd. rewrite Hbb. now apply zero_range_leq.
    + apply rel_ret. cbn. auto.
  - intros [[st1 bb1] o1] [[st2 bb2] o2] [H1 H2]. cbn in H1, H2. subst o2.
    eapply rel_bind; [apply rel_p_uchk; reflexivity|]. intros bits ? <-.
    eapply rel_bind; [apply rel_write_slice; [exact (zero_range_leq _ _ _ _ H1)|reflexivity|exact eq_refl]|].
    intros c1 c2 Hc. apply rel_ret. repeat split; cbn; auto.
Qed.
Lemma flat_map_be_len n l : length (flat_map (be_encode n) l) = (length l * n)%nat.
Proof. induction l as [|x l IH]; cbn; [reflexivity|]. now rewrite app_length, be_encode_len, IH. Qed.
Lemma rel_proc_write_digest b p1 p2 o1 o2 : Rp p1 p2 -> leq o1 o2 ->
  rel leq (c_proc_write_digest Zops P b p1 o1) (c_proc_write_digest Zops P b p2 o2).
Proof.
  intros Hp Ho. unfold c_proc_write_digest.
  eapply rel_bind; [apply rel_pad; exact Hp|]. intros q1 q2 Hq. rewrite Ho.
  rewrite (process_len (cp_state q1) (cp_buffer q1) (cp_state q2) (cp_buffer q2)).
  eapply rel_bind; [apply rel_assert; reflexivity|]. intros _ _ _.
  eapply rel_bind; [apply rel_assert; reflexivity|]. intros _ _ _.
  apply rel_ret. unfold leq. cbn [w_be_encode Zops]. rewrite !flat_map_be_len, !firstn_length.
  now rewrite (process_len (cp_state q1) (cp_buffer q1) (cp_state q2) (cp_buffer q2)).
Qed.
End RelProc.

Section RelAlg.
Variable P : sha_params.
Variable alg : algorithm.

Lemma Rp_refl p : Rp p p.
Proof. repeat split. Qed.
Lemma rel_hupdate b p1 p2 i1 i2 : Rp p1 p2 -> leq i1 i2 ->
  rel Rp (c_hupdate Zops P b p1 i1) (c_hupdate Zops P b p2 i2).
Proof. apply rel_proc_update. Qed.
Lemma rel_hwrite_digest b p1 p2 o1 o2 : Rp p1 p2 -> leq o1 o2 ->
  rel leq (c_hwrite_digest Zops P alg b p1 o1) (c_hwrite_digest Zops P alg b p2 o2).
Proof.
  intros Hp Ho. unfold c_hwrite_digest. rewrite Ho.
  eapply rel_bind; [apply rel_assert; reflexivity|]. intros _ _ _.
  now apply rel_proc_write_digest.
Qed.
Lemma rel_hash_wrapper b m1 m2 : leq m1 m2 ->
  rel leq (c_hash_wrapper Zops P alg b m1) (c_hash_wrapper Zops P alg b m2).
Proof.
  intros Hm. unfold c_hash_wrapper.
  eapply rel_bind; [apply rel_hupdate; [apply Rp_refl|exact Hm]|]. intros s1 s2 Hs.
  apply rel_hwrite_digest; [exact Hs|reflexivity].
Qed.
Lemma rel_updates b l1 l2 : Forall2 leq l1 l2 -> forall s1 s2, Rp s1 s2 ->
  rel Rp (c_updates Zops P b s1 l1) (c_updates Zops P b s2 l2).
Proof.
  induction 1 as [|x y l1 l2 Hxy _ IH]; intros s1 s2 Hs; cbn [c_updates]; [now apply rel_ret|].
  eapply rel_bind; [now apply rel_hupdate|]. intros t1 t2 Ht. now apply IH.
Qed.
Lemma rel_tag_deref t1 t2 : Rt t1 t2 -> rel leq (c_tag_deref t1) (c_tag_deref t2).
Proof. intros [H1 H2]. now apply rel_slice. Qed.
Lemma rel_update_each b l1 : forall l2 s1 s2, leq l1 l2 -> Rp s1 s2 ->
  rel Rp (c_update_each Zops P b s1 l1) (c_update_each Zops P b s2 l2).
Proof.
  induction l1 as [|x l1 IH]; intros [|y l2] s1 s2 Hl Hs; try discriminate Hl; cbn [c_update_each].
  - eapply rel_bind; [apply rel_tick; reflexivity|]. intros _ _ _. now apply rel_ret.
  - eapply rel_bind; [apply rel_tick; reflexivity|]. intros _ _ _.
    eapply rel_bind; [apply rel_hupdate; [exact Hs|reflexivity]|]. intros t1 t2 Ht.
    apply IH; [|exact Ht]. unfold leq in *. cbn in Hl. congruence.
Qed.
Lemma map_leq {A B C D} (f : A -> B) (g : C -> D) l m : leq l m -> leq (map f l) (map g m).
Proof. unfold leq. now rewrite !map_length. Qed.
Lemma rel_keyed b k1 k2 pad : leq k1 k2 ->
  rel Rp (c_keyed_hash_function Zops P alg b k1 pad) (c_keyed_hash_function Zops P alg b k2 pad).
Proof.
  intros Hk. unfold c_keyed_hash_function.
  eapply rel_bind; [apply rel_update_each; [now apply map_leq|apply Rp_refl]|]. intros s1 s2 Hs.
  apply rel_update_each; [|exact Hs]. rewrite Hk. reflexivity.
Qed.
Lemma rel_hmac_new b k1 k2 : leq k1 k2 ->
  rel Rh (c_hmac_new Zops P alg b k1) (c_hmac_new Zops P alg b k2).
Proof.
  intros Hk. unfold c_hmac_new. rewrite Hk.
  apply (rel_bind leq).
  - apply rel_branch; [reflexivity| |now apply rel_ret].
    eapply rel_bind; [apply rel_slice; reflexivity|]. intros o1 o2 Ho.
    eapply rel_bind; [apply rel_hupdate; [apply Rp_refl|exact Hk]|]. intros s1 s2 Hs.
    now apply rel_hwrite_digest.
  - intros n1 n2 Hn.
    eapply rel_bind; [apply rel_keyed; exact Hn|]. intros i1 i2 Hi.
    eapply rel_bind; [apply rel_keyed; exact Hn|]. intros o1 o2 Ho.
    apply rel_ret. split; assumption.
Qed.
Lemma rel_hmac_update b h1 h2 i1 i2 : Rh h1 h2 -> leq i1 i2 ->
  rel Rh (c_hmac_update Zops P b h1 i1) (c_hmac_update Zops P b h2 i2).
Proof.
  intros [H1 H2] Hi. unfold c_hmac_update.
  eapply rel_bind; [apply rel_hupdate; [exact H1|exact Hi]|]. intros j1 j2 Hj.
  apply rel_ret. split; assumption.
Qed.
Lemma rel_write_tag b h1 h2 o1 o2 : Rh h1 h2 -> leq o1 o2 ->
  rel leq (c_write_tag Zops P alg b h1 o1) (c_write_tag Zops P alg b h2 o2).
Proof.
  intros [H1 H2] Ho. unfold c_write_tag. rewrite Ho.
  eapply rel_bind; [apply rel_assert; reflexivity|]. intros _ _ _.
  eapply rel_bind; [apply rel_hwrite_digest; [exact H1|exact Ho]|]. intros d1 d2 Hd.
  eapply rel_bind; [apply rel_hupdate; [exact H2|exact Hd]|]. intros e1 e2 He.
  now apply rel_hwrite_digest.
Qed.
Lemma rel_hmac_tag b h1 h2 : Rh h1 h2 ->
  rel Rt (c_hmac_tag Zops P alg b h1) (c_hmac_tag Zops P alg b h2).
Proof.
  intros Hh. unfold c_hmac_tag.
  eapply rel_bind; [apply rel_slice; reflexivity|]. intros o1 o2 Ho.
  eapply rel_bind; [apply rel_write_tag; [exact Hh|exact Ho]|]. intros d1 d2 Hd.
  eapply rel_bind; [apply rel_write_slice; [reflexivity|reflexivity|exact Hd]|]. intros e1 e2 He.
  apply rel_ret. split; [exact He|reflexivity].
Qed.
Lemma rel_hmac_wrapper b k1 k2 m1 m2 : leq k1 k2 -> leq m1 m2 ->
  rel leq (c_hmac_wrapper Zops P alg b k1 m1) (c_hmac_wrapper Zops P alg b k2 m2).
Proof.
  intros Hk Hm. unfold c_hmac_wrapper.
  eapply rel_bind; [apply rel_hmac_new; exact Hk|]. intros h1 h2 Hh.
  eapply rel_bind; [apply rel_hmac_update; [exact Hh|exact Hm]|]. intros g1 g2 Hg.
  apply rel_write_tag; [exact Hg|reflexivity].
Qed.
Lemma rel_extract b s1 s2 i1 i2 p1 p2 : leq s1 s2 -> leq i1 i2 -> leq p1 p2 ->
  rel leq (c_extract Zops P alg b s1 i1 p1) (c_extract Zops P alg b s2 i2 p2).
Proof.
  intros Hs Hi Hp. unfold c_extract. rewrite Hp.
  eapply rel_bind; [apply rel_assert; reflexivity|]. intros _ _ _.
  eapply rel_bind; [apply rel_hmac_new; exact Hs|]. intros h1 h2 Hh.
  eapply rel_bind; [apply rel_hmac_update; [exact Hh|exact Hi]|]. intros g1 g2 Hg.
  eapply rel_bind; [apply rel_hmac_tag; exact Hg|]. intros t1 t2 Ht.
  eapply rel_bind; [apply rel_tag_deref; exact Ht|]. intros e1 e2 He. rewrite He.
  eapply rel_bind; [apply rel_assert; reflexivity|]. intros _ _ _. now apply rel_ret.
Qed.
Lemma rel_expand_loop b k1 k2 n1 n2 cs1 cs2 : leq k1 k2 -> leq n1 n2 -> Forall2 leq cs1 cs2 ->
  forall i h1 h2, Rh h1 h2 ->
  rel (Forall2 leq) (c_expand_loop Zops P alg b k1 n1 i h1 cs1) (c_expand_loop Zops P alg b k2 n2 i h2 cs2).
Proof.
  intros Hk Hn. induction 1 as [|x y cs1 cs2 Hxy Hcs IH]; intros i h1 h2 Hh; cbn [c_expand_loop].
  - eapply rel_bind; [apply rel_p_uchk; reflexivity|]. intros j ? <-.
    eapply rel_bind; [apply rel_tick; reflexivity|]. intros _ _ _. apply rel_ret. constructor.
  - eapply rel_bind; [apply rel_p_uchk; reflexivity|]. intros j ? <-.
    eapply rel_bind; [apply rel_tick; reflexivity|]. intros _ _ _.
    eapply rel_bind; [apply rel_hmac_update; [exact Hh|exact Hn]|]. intros g1 g2 Hg.
    eapply rel_bind; [apply rel_hmac_update; [exact Hg|reflexivity]|]. intros f1 f2 Hf.
    eapply rel_bind; [apply rel_hmac_tag; exact Hf|]. intros t1 t2 Ht.
    eapply rel_bind; [apply rel_tag_deref; exact Ht|]. intros e1 e2 He. rewrite Hxy, He.
    apply rel_branch; [reflexivity| |].
    + eapply rel_bind; [apply rel_slice; [exact He|reflexivity|reflexivity]|]. intros q1 q2 Hq.
      apply rel_ret. now constructor.
    + eapply rel_bind; [apply rel_assert; reflexivity|]. intros _ _ _.
      eapply rel_bind; [apply rel_hmac_new; exact Hk|]. intros a1 a2 Ha.
      eapply rel_bind; [apply rel_hmac_update; [exact Ha|exact He]|]. intros b1 b2 Hb.
      eapply rel_bind; [apply IH; exact Hb|]. intros r1 r2 Hr.
      apply rel_ret. now constructor.
Qed.
Lemma rel_expand b k1 k2 n1 n2 o1 o2 : leq k1 k2 -> leq n1 n2 -> leq o1 o2 ->
  rel leq (c_expand Zops P alg b k1 n1 o1) (c_expand Zops P alg b k2 n2 o2).
Proof.
  intros Hk Hn Ho. unfold c_expand. rewrite Hk, Ho.
  eapply rel_bind; [apply rel_assert; reflexivity|]. intros _ _ _.
  eapply rel_bind; [apply rel_assert; reflexivity|]. intros _ _ _.
  eapply rel_bind; [apply rel_hmac_new; exact Hk|]. intros h1 h2 Hh.
  eapply rel_bind; [apply rel_assert; reflexivity|]. intros _ _ _.
  eapply rel_bind; [apply rel_expand_loop; [exact Hk|exact Hn|now apply chunks_leq|exact Hh]|].
  intros c1 c2 Hc. apply rel_ret. now apply concat_leq.
Qed.
End RelAlg.
