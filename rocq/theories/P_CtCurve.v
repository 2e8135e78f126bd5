(** The leakage model of X25519 and of Ed25519 key generation and signing
    computes what M_Curve25519.v and M_Ed25519.v compute, and its trace does
    not depend on keys, and on messages only through their length. *)
From Verif Require Import Base M_Util M_Slp M_FeProg M_ScProg M_EdConst M_Sha2 M_Curve25519 M_Ed25519
  M_CtBase M_CtHash M_CtCurve P_CtBase P_CtHash.

(** * Results *)

(** All widths in a program are positive. *)
Fixpoint wposb (e : expr) : bool :=
  match e with
  | V _ | C _ => true
  | Add w a c | Sub w a c | Mul w a c => (0 <? w) && wposb a && wposb c
  | Shr a _ => wposb a
  | Shl _ a _ | As _ a => wposb a
  end.
Definition pposb (p : prog) : bool :=
  forallb (fun s => match s with Let _ e => wposb e end) (body p) && forallb wposb (outs p).

Lemma sim_eval b s e : wposb e = true -> simi (c_eval Zops b s e) (eval b s e).
Proof.
  induction e as [x|n|w e1 IH1 e2 IH2|w e1 IH1 e2 IH2|w e1 IH1 e2 IH2|e1 IH1 k|w e1 IH1 k|w e1 IH1];
    cbn [wposb c_eval eval]; intros Hw.
  - reflexivity.
  - reflexivity.
  - apply andb_prop in Hw. destruct Hw as [Hw H2]. apply andb_prop in Hw. destruct Hw as [Hw H1].
    apply Z.ltb_lt in Hw. eapply sim_bind; [apply IH1, H1|]. intros v1.
    eapply sim_bind; [apply IH2, H2|]. intros v2. now apply sim_z_schk.
  - apply andb_prop in Hw. destruct Hw as [Hw H2]. apply andb_prop in Hw. destruct Hw as [Hw H1].
    apply Z.ltb_lt in Hw. eapply sim_bind; [apply IH1, H1|]. intros v1.
    eapply sim_bind; [apply IH2, H2|]. intros v2. now apply sim_z_schk.
  - apply andb_prop in Hw. destruct Hw as [Hw H2]. apply andb_prop in Hw. destruct Hw as [Hw H1].
    apply Z.ltb_lt in Hw. eapply sim_bind; [apply IH1, H1|]. intros v1.
    eapply sim_bind; [apply IH2, H2|]. intros v2. now apply sim_z_schk.
  - eapply sim_bind; [apply IH1, Hw|]. intros v. reflexivity.
  - eapply sim_bind; [apply IH1, Hw|]. intros v. reflexivity.
  - eapply sim_bind; [apply IH1, Hw|]. intros v. reflexivity.
Qed.
Lemma sim_exec b l : forallb (fun s => match s with Let _ e => wposb e end) l = true ->
  forall s, simi (c_exec Zops b l s) (exec b l s).
Proof.
  induction l as [|[x e] l IH]; cbn [forallb c_exec exec]; intros H s; [reflexivity|].
  apply andb_prop in H. destruct H as [H1 H2].
  eapply sim_bind; [apply sim_eval, H1|]. intros v. apply IH, H2.
Qed.
Lemma sim_evals b s es : forallb wposb es = true -> simi (c_evals Zops b s es) (evals b s es).
Proof.
  induction es as [|e es IH]; cbn [forallb c_evals evals]; intros H; [reflexivity|].
  apply andb_prop in H. destruct H as [H1 H2].
  eapply sim_bind; [apply sim_eval, H1|]. intros v.
  eapply sim_bind; [apply IH, H2|]. intros vs. reflexivity.
Qed.
Lemma c_bind_args_eq xs : forall vs, c_bind_args (W := Z) xs vs = bind_args xs vs.
Proof. reflexivity. Qed.
Lemma sim_run b p vs : pposb p = true -> simi (c_run Zops b p vs) (run b p vs).
Proof.
  intros H. apply andb_prop in H. destruct H as [H1 H2]. unfold c_run, run. rewrite c_bind_args_eq.
  eapply sim_bind; [apply sim_exec, H1|]. intros s. apply sim_evals, H2.
Qed.

Lemma sim_idx (l : list Z) i : simi (c_idx l i) (idx l i).
Proof. unfold c_idx, idx. apply sim_tick. destruct (nth_error l i); reflexivity. Qed.
Lemma sim_from (l : list Z) n : simi (c_from l n) (from l n).
Proof. unfold c_from, from. apply sim_tick. apply sim_branch; reflexivity. Qed.
Lemma sim_load_3 x : simi (c_load_3 Zops x) (load_3 x).
Proof.
  unfold c_load_3, load_3. do 2 (eapply sim_bind; [apply sim_idx|intros ?]).
  eapply sim_bind; [apply sim_idx|intros ?]. reflexivity.
Qed.
Lemma sim_load_4 x : simi (c_load_4 Zops x) (load_4 x).
Proof.
  unfold c_load_4, load_4. do 2 (eapply sim_bind; [apply sim_idx|intros ?]).
  eapply sim_bind; [apply sim_idx|intros ?]. eapply sim_bind; [apply sim_idx|intros ?]. reflexivity.
Qed.
Lemma sim_load_3_at s n : simi (c_load_3_at Zops s n) (load_3_at s n).
Proof. eapply sim_bind; [apply sim_from|intros ?]. apply sim_load_3. Qed.
Lemma sim_load_4_at s n : simi (c_load_4_at Zops s n) (load_4_at s n).
Proof. eapply sim_bind; [apply sim_from|intros ?]. apply sim_load_4. Qed.

Lemma sim_limbs2 b op f : forall g, simi (c_limbs2 Zops b op f g) (limbs2 b op f g).
Proof.
  induction f as [|x f IH]; intros [|y g]; cbn [c_limbs2 limbs2]; try reflexivity.
  eapply sim_bind; [apply sim_z_schk; lia|]. intros v.
  eapply sim_bind; [apply IH|]. intros r. reflexivity.
Qed.
Lemma sim_fe_add b f g : simi (c_fe_add Zops b f g) (fe_add b f g).
Proof. apply sim_limbs2. Qed.
Lemma sim_fe_sub b f g : simi (c_fe_sub Zops b f g) (fe_sub b f g).
Proof. apply sim_limbs2. Qed.
Lemma sim_fe_subtract_from b f g : simi (c_fe_subtract_from Zops b f g) (fe_subtract_from b f g).
Proof. apply sim_limbs2. Qed.
Lemma sim_fe_mul b f g : simi (c_fe_mul Zops b f g) (fe_mul b f g).
Proof. apply sim_run. vm_compute. reflexivity. Qed.
Lemma sim_fe_sq b f : simi (c_fe_sq Zops b f) (fe_sq b f).
Proof. apply sim_run. vm_compute. reflexivity. Qed.
Lemma sim_fe_mul121666 b f : simi (c_fe_mul121666 Zops b f) (fe_mul121666 b f).
Proof. apply sim_run. vm_compute. reflexivity. Qed.
Lemma sim_from_bytes_prog b l : simi (c_run Zops b from_bytes_prog l) (run b from_bytes_prog l).
Proof. apply sim_run. vm_compute. reflexivity. Qed.
Lemma sim_write_bytes_prog b l : simi (c_run Zops b write_bytes_prog l) (run b write_bytes_prog l).
Proof. apply sim_run. vm_compute. reflexivity. Qed.
Lemma sim_fe_twice_sq b f : simi (c_fe_twice_sq Zops b f) (fe_twice_sq b f).
Proof. apply sim_run. vm_compute. reflexivity. Qed.
Lemma sim_sc_muladd_prog b l : simi (c_run Zops b sc_muladd_prog l) (run b sc_muladd_prog l).
Proof. apply sim_run. vm_compute. reflexivity. Qed.
Lemma sim_sc_reduce_prog b l : simi (c_run Zops b sc_reduce_prog l) (run b sc_reduce_prog l).
Proof. apply sim_run. vm_compute. reflexivity. Qed.

Lemma c_fe_cswap_eq f g c : c_fe_cswap Zops f g c = fe_cswap f g c.
Proof. reflexivity. Qed.
Lemma sim_fe_from_bytes b s : simi (c_fe_from_bytes Zops b s) (fe_from_bytes b s).
Proof.
  unfold c_fe_from_bytes, fe_from_bytes.
  eapply sim_bind; [apply sim_load_4|intros ?].
  do 4 (eapply sim_bind; [apply sim_load_3_at|intros ?]).
  eapply sim_bind; [apply sim_load_4_at|intros ?].
  do 4 (eapply sim_bind; [apply sim_load_3_at|intros ?]).
  apply sim_from_bytes_prog.
Qed.
Local Opaque c_fe_mul fe_mul c_fe_sq fe_sq c_fe_mul121666 fe_mul121666 c_fe_twice_sq fe_twice_sq
  c_fe_add fe_add c_fe_sub fe_sub c_fe_subtract_from fe_subtract_from.
Lemma sim_sq_times b n : forall f, simi (c_sq_times Zops b n f) (sq_times b n f).
Proof.
  induction n as [|n IH]; intros f; cbn [c_sq_times sq_times]; [reflexivity|].
  eapply sim_bind; [apply sim_fe_sq|]. intros g. apply IH.
Qed.
Lemma sim_square_many b f n : simi (c_square_many Zops b f n) (square_many b f n).
Proof. apply sim_sq_times. Qed.
Local Opaque c_square_many square_many.
Local Ltac sfe :=
  lazymatch goal with
  | |- sim _ (c_fe_mul _ _ _ _) _ => apply sim_fe_mul
  | |- sim _ (c_fe_sq _ _ _) _ => apply sim_fe_sq
  | |- sim _ (c_square_many _ _ _ _) _ => apply sim_square_many
  | |- sim _ (c_fe_add _ _ _ _) _ => apply sim_fe_add
  | |- sim _ (c_fe_sub _ _ _ _) _ => apply sim_fe_sub
  | |- sim _ (c_fe_subtract_from _ _ _ _) _ => apply sim_fe_subtract_from
  | |- sim _ (c_fe_mul121666 _ _ _) _ => apply sim_fe_mul121666
  | |- sim _ (c_fe_twice_sq _ _ _) _ => apply sim_fe_twice_sq
  end.
Local Ltac sfes := repeat (eapply sim_bind; [sfe|intros ?]).
Lemma sim_fe_invert b z : simi (c_fe_invert Zops b z) (fe_invert b z).
Proof. unfold c_fe_invert, fe_invert. sfes. sfe. Qed.

Lemma sim_q_step b h q k : simi (c_q_step Zops b h q k) (q_step b h q k).
Proof. eapply sim_bind; [apply sim_z_schk; lia|]. intros t. reflexivity. Qed.
Lemma c_fe_bytes_eq h : c_fe_bytes Zops h = fe_bytes h.
Proof. reflexivity. Qed.
Local Opaque c_fe_bytes fe_bytes c_run run c_q_step q_step.
Lemma sim_fe_write_bytes b h : simi (c_fe_write_bytes Zops b h) (fe_write_bytes b h).
Proof.
  unfold c_fe_write_bytes, fe_write_bytes.
  eapply sim_bind; [apply sim_z_schk; lia|intros ?].
  eapply sim_bind; [apply sim_z_schk; lia|intros ?].
  do 10 (eapply sim_bind; [apply sim_q_step|intros ?]).
  eapply sim_bind; [apply sim_write_bytes_prog|intros ?].
  apply sim_ret. apply c_fe_bytes_eq.
Qed.

Definition ofl (s : c_ladder (W := Z)) : ladder :=
  {| lx2 := c_lx2 s; lz2 := c_lz2 s; lx3 := c_lx3 s; lz3 := c_lz3 s; lswap := c_lswap s |}.
Lemma sim_ladder_step b x1 st bit : sim ofl (c_ladder_step Zops b x1 st bit) (ladder_step b x1 (ofl st) bit).
Proof.
  unfold c_ladder_step, ladder_step. cbv zeta. repeat match goal with |- context[c_fe_cswap Zops ?f ?g ?c] => rewrite (c_fe_cswap_eq f g c) end.
  change (lx2 (ofl st)) with (c_lx2 st). change (lx3 (ofl st)) with (c_lx3 st).
  change (lz2 (ofl st)) with (c_lz2 st). change (lz3 (ofl st)) with (c_lz3 st).
  change (lswap (ofl st)) with (c_lswap st). change (w_xor Zops) with Z.lxor.
  destruct (fe_cswap (c_lx2 st) (c_lx3 st) _) as [x2 x3].
  destruct (fe_cswap (c_lz2 st) (c_lz3 st) _) as [z2 z3].
  sfes. apply sim_ret. reflexivity.
Qed.
Local Opaque c_ladder_step ladder_step.
Lemma sim_ladder_loop b e x1 n : forall st,
  sim ofl (c_ladder_loop Zops b e x1 n st) (ladder_loop b e x1 n (ofl st)).
Proof.
  induction n as [|n IH]; intros st; cbn [c_ladder_loop ladder_loop].
  - apply sim_tick. reflexivity.
  - apply sim_tick. eapply sim_bind; [apply sim_idx|]. intros byte.
    eapply sim_bind; [apply sim_ladder_step|]. intros s. apply IH.
Qed.
Local Opaque c_fe_invert fe_invert c_fe_write_bytes fe_write_bytes c_fe_from_bytes fe_from_bytes.
Lemma sim_scalarmult b n p : simi (c_scalarmult Zops b n p) (scalarmult b n p).
Proof.
  unfold c_scalarmult, scalarmult. generalize 255%nat. intros N.
  eapply sim_bind; [apply sim_assert|]. intros [].
  eapply sim_bind; [apply sim_assert|]. intros [].
  eapply sim_bind; [apply sim_fe_from_bytes|]. intros x1.
  eapply sim_bind; [apply sim_ladder_loop|]. intros st. repeat match goal with |- context[c_fe_cswap Zops ?f ?g ?c] => rewrite (c_fe_cswap_eq f g c) end.
  change (lx2 (ofl st)) with (c_lx2 st). change (lx3 (ofl st)) with (c_lx3 st).
  change (lz2 (ofl st)) with (c_lz2 st). change (lz3 (ofl st)) with (c_lz3 st).
  change (lswap (ofl st)) with (c_lswap st).
  destruct (fe_cswap (c_lx2 st) (c_lx3 st) _) as [x2 x3].
  destruct (fe_cswap (c_lz2 st) (c_lz3 st) _) as [z2 z3].
  eapply sim_bind; [apply sim_fe_invert|intros ?]. eapply sim_bind; [apply sim_fe_mul|intros ?].
  apply sim_fe_write_bytes.
Qed.
Local Opaque c_scalarmult scalarmult.
Lemma sim_x_gen_pk b sk : simi (c_x_gen_pk Zops b sk) (x_gen_pk b sk).
Proof. exact (sim_scalarmult b sk (9 :: repeat 0 31)). Qed.
Lemma sim_x_dh b pk sk : simi (c_x_dh Zops b pk sk) (x_dh b pk sk).
Proof. exact (sim_scalarmult b sk pk). Qed.

Definition ofP2 (p : c_GeP2 (W := Z)) : GeP2 := mkP2 (c_p2x p) (c_p2y p) (c_p2z p).
Definition ofP3 (p : c_GeP3 (W := Z)) : GeP3 := mkP3 (c_p3x p) (c_p3y p) (c_p3z p) (c_p3t p).
Definition ofP1 (p : c_GeP1p1 (W := Z)) : GeP1p1 := mkP1 (c_c1x p) (c_c1y p) (c_c1z p) (c_c1t p).
Definition ofPre (p : c_GePrecomp (W := Z)) : GePrecomp := mkPre (c_yplusx p) (c_yminusx p) (c_xy2d p).

Lemma sim_ge_madd b p q : sim ofP1 (c_ge_madd Zops b p q) (ge_madd b (ofP3 p) (ofPre q)).
Proof. unfold c_ge_madd, ge_madd. destruct p as [v1 v2 v3 v4], q as [v5 v6 v7]. cbn [ofP3 ofPre c_p3x c_p3y c_p3z c_p3t c_yplusx c_yminusx c_xy2d p3x p3y p3z p3t yplusx yminusx xy2d]. sfes. apply sim_ret. reflexivity. Qed.
Lemma sim_p1p1_to_p2 b p : sim ofP2 (c_p1p1_to_p2 Zops b p) (p1p1_to_p2 b (ofP1 p)).
Proof. unfold c_p1p1_to_p2, p1p1_to_p2. destruct p as [v1 v2 v3 v4]. cbn [ofP1 c_c1x c_c1y c_c1z c_c1t c1x c1y c1z c1t]. sfes. apply sim_ret. reflexivity. Qed.
Lemma sim_p1p1_to_p3 b p : sim ofP3 (c_p1p1_to_p3 Zops b p) (p1p1_to_p3 b (ofP1 p)).
Proof. unfold c_p1p1_to_p3, p1p1_to_p3. destruct p as [v1 v2 v3 v4]. cbn [ofP1 c_c1x c_c1y c_c1z c_c1t c1x c1y c1z c1t]. sfes. apply sim_ret. reflexivity. Qed.
Lemma sim_p2_dbl b p : sim ofP1 (c_p2_dbl Zops b p) (p2_dbl b (ofP2 p)).
Proof. unfold c_p2_dbl, p2_dbl. destruct p as [v1 v2 v3]. cbn [ofP2 c_p2x c_p2y c_p2z p2x p2y p2z]. sfes. apply sim_ret. reflexivity. Qed.
Lemma sim_p3_dbl b p : sim ofP1 (c_p3_dbl Zops b p) (p3_dbl b (ofP3 p)).
Proof. exact (sim_p2_dbl b (c_p3_to_p2 p)). Qed.
Lemma sim_fe_is_negative b f : simi (c_fe_is_negative Zops b f) (fe_is_negative b f).
Proof.
  eapply sim_bind; [apply sim_fe_write_bytes|intros ?]. eapply sim_bind; [apply sim_idx|intros ?]. reflexivity.
Qed.
Local Opaque c_fe_is_negative fe_is_negative c_idx idx.
Lemma sim_p3_tobytes b p : simi (c_p3_tobytes Zops b p) (p3_tobytes b (ofP3 p)).
Proof.
  unfold c_p3_tobytes, p3_tobytes, ge_bytes. destruct p as [v1 v2 v3 v4]. cbn [ofP3 c_p3x c_p3y c_p3z c_p3t p3x p3y p3z p3t].
  eapply sim_bind; [apply sim_fe_invert|intros ?]. sfes.
  eapply sim_bind; [apply sim_fe_write_bytes|intros ?].
  eapply sim_bind; [apply sim_fe_is_negative|intros ?].
  eapply sim_bind; [apply sim_idx|intros ?]. apply sim_ret. reflexivity.
Qed.

Lemma sim_fe_neg b f : simi (c_fe_neg Zops b f) (fe_neg b f).
Proof.
  induction f as [|x f IH]; cbn [c_fe_neg fe_neg]; [reflexivity|].
  eapply sim_bind; [apply sim_z_schk; lia|]. intros v. eapply sim_bind; [apply IH|]. intros r. reflexivity.
Qed.
Lemma c_fe_cmov_eq f g c : c_fe_cmov Zops f g c = fe_cmov f g c.
Proof. reflexivity. Qed.
Lemma c_precomp_of_eq e : ofPre (c_precomp_of Zops e) = precomp_of e.
Proof. unfold ofPre, c_precomp_of, precomp_of. cbn [c_yplusx c_yminusx c_xy2d]. now rewrite !map_id_lit. Qed.
Local Opaque c_fe_cmov fe_cmov.
Lemma c_cmov_eq t u c : ofPre (c_cmov Zops t u c) = cmov (ofPre t) (ofPre u) c.
Proof.
  destruct t as [v1 v2 v3], u as [v4 v5 v6]. unfold ofPre, c_cmov, cmov. cbn [c_yplusx c_yminusx c_xy2d yplusx yminusx xy2d].
  repeat match goal with |- context[c_fe_cmov Zops ?f ?g ?c] => rewrite (c_fe_cmov_eq f g c) end. reflexivity.
Qed.
Lemma c_equal_eq x c : c_equal Zops x c = equal x c.
Proof. reflexivity. Qed.
Lemma sim_base_idx pos : simi (c_idx BASE pos) (match nth_error BASE pos with Some r => Ok r | None => Panic end).
Proof. Transparent c_idx. unfold c_idx. generalize BASE. intros B. apply sim_tick. destruct (nth_error B pos); reflexivity. Qed.
Local Opaque c_idx.
Local Opaque c_cmov cmov c_equal equal c_precomp_of precomp_of.
Lemma sim_select b pos e : sim ofPre (c_select Zops b pos e) (select b pos e).
Proof.
  unfold c_select, select. pose proof (sim_base_idx pos) as HB. revert HB.
  generalize (c_idx BASE pos). generalize (match nth_error BASE pos with Some r => Ok r | None => Panic end).
  intros rb mb HB. cbv zeta.
  eapply sim_bind; [apply sim_z_schk; lia|]. intros babs. cbv beta.
  eapply sim_bind; [exact HB|]. intros row. cbv beta.
  repeat match goal with |- context[c_equal Zops ?f ?g] => rewrite (c_equal_eq f g) end.
  change (c_precomp_0 Zops) with (c_mkPre (W := Z) fe_one fe_one fe_zero).
  set (t := c_cmov Zops _ _ (equal babs 8)).
  match goal with |- context[xy2d ?u] => assert (Et : ofPre t = u) end.
  { unfold t. repeat (rewrite c_cmov_eq, c_precomp_of_eq). reflexivity. }
  rewrite <- Et. clearbody t.
  change (xy2d (ofPre t)) with (c_xy2d t).
  eapply sim_bind; [apply sim_fe_neg|]. intros nt. apply sim_ret. rewrite c_cmov_eq. reflexivity.
Qed.
Local Opaque c_select select c_ge_madd ge_madd c_p1p1_to_p3 p1p1_to_p3 c_p1p1_to_p2 p1p1_to_p2 c_p2_dbl p2_dbl c_p3_dbl p3_dbl.
Lemma sim_recode b e : forall c, simi (c_recode Zops b c e) (recode b c e).
Proof.
  induction e as [|x e IH]; intros c; [reflexivity|].
  destruct e as [|y e].
  - cbn [c_recode recode]. eapply sim_bind; [apply sim_z_schk; lia|]. intros v. reflexivity.
  - change (simi
      (let* v := w_schk Zops b 8 (w_add Zops x c) in
       let* c := w_schk Zops b 8 (w_add Zops v (w_lit Zops 8)) in
       let c := w_shr Zops c 4 in
       let* v := w_schk Zops b 8 (w_sub Zops v (c_shl8 Zops c 4)) in
       let* r := c_recode Zops b c (y :: e) in ret (v :: r))
      (let! v := schk b 8 (x + c) in
       let! c := schk b 8 (v + 8) in
       let c := Z.shiftr c 4 in
       let! v := schk b 8 (v - shl8 c 4) in
       let! r := recode b c (y :: e) in Ok (v :: r))).
    eapply sim_bind; [apply sim_z_schk; lia|]. intros v.
    eapply sim_bind; [apply sim_z_schk; lia|]. intros d. cbv zeta.
    eapply sim_bind; [apply sim_z_schk; lia|]. intros v'.
    eapply sim_bind; [apply IH|]. intros r. reflexivity.
Qed.
Lemma c_nibbles_eq a : c_nibbles Zops a = nibbles a.
Proof. reflexivity. Qed.
Lemma sim_base_loop b e n : forall i h, sim ofP3 (c_base_loop Zops b e n i h) (base_loop b e n i (ofP3 h)).
Proof.
  induction n as [|n IH]; intros i h; cbn [c_base_loop base_loop].
  - apply sim_tick. reflexivity.
  - apply sim_tick. eapply sim_bind; [apply sim_idx|]. intros d.
    eapply sim_bind; [apply sim_select|]. intros t.
    eapply sim_bind; [apply sim_ge_madd|]. intros r.
    eapply sim_bind; [apply sim_p1p1_to_p3|]. intros h'. apply IH.
Qed.
Local Opaque c_recode recode c_nibbles nibbles.
Lemma sim_from_scalarmult_base b a : sim ofP3 (c_from_scalarmult_base Zops b a) (from_scalarmult_base b a).
Proof.
  unfold c_from_scalarmult_base, from_scalarmult_base. generalize 32%nat. intros N.
  rewrite (c_nibbles_eq a).
  eapply sim_bind; [apply sim_recode|]. intros e.
  eapply sim_bind; [apply (sim_base_loop b e N 1 (c_p3_zero Zops))|]. intros h.
  eapply sim_bind; [apply sim_p3_dbl|]. intros r1.
  eapply sim_bind; [apply sim_p1p1_to_p2|]. intros r2.
  eapply sim_bind; [apply sim_p2_dbl|]. intros r3.
  eapply sim_bind; [apply sim_p1p1_to_p2|]. intros r4.
  eapply sim_bind; [apply sim_p2_dbl|]. intros r5.
  eapply sim_bind; [apply sim_p1p1_to_p2|]. intros r6.
  eapply sim_bind; [apply sim_p2_dbl|]. intros r7.
  eapply sim_bind; [apply sim_p1p1_to_p3|]. intros r8.
  apply sim_base_loop.
Qed.
Local Opaque c_from_scalarmult_base from_scalarmult_base.

Local Opaque c_load_3_at load_3_at c_load_4_at load_4_at.
Lemma sim_limb3 s n k : simi (c_limb3 Zops s n k) (limb3 s n k).
Proof. eapply sim_bind; [apply sim_load_3_at|intros ?]. reflexivity. Qed.
Lemma sim_limb4 s n k : simi (c_limb4 Zops s n k) (limb4 s n k).
Proof. eapply sim_bind; [apply sim_load_4_at|intros ?]. reflexivity. Qed.
Lemma sim_limb4_top s n k : simi (c_limb4_top Zops s n k) (limb4_top s n k).
Proof. eapply sim_bind; [apply sim_load_4_at|intros ?]. reflexivity. Qed.
Local Opaque c_limb3 limb3 c_limb4 limb4 c_limb4_top limb4_top.
Local Ltac slimb := eapply sim_bind; [first [apply sim_limb3 | apply sim_limb4 | apply sim_limb4_top]|intros ?].
Lemma sim_limbs_0_10 s : simi (c_limbs_0_10 Zops s) (limbs_0_10 s).
Proof. unfold c_limbs_0_10, limbs_0_10. do 11 slimb. apply sim_ret. reflexivity. Qed.
Lemma sim_limbs12 s : simi (c_limbs12 Zops s) (limbs12 s).
Proof.
  unfold c_limbs12, limbs12. eapply sim_bind; [apply sim_limbs_0_10|intros ?]. slimb. apply sim_ret. reflexivity.
Qed.
Lemma sim_limbs24 s : simi (c_limbs24 Zops s) (limbs24 s).
Proof.
  unfold c_limbs24, limbs24. eapply sim_bind; [apply sim_limbs_0_10|intros ?]. do 13 slimb. apply sim_ret. reflexivity.
Qed.
Lemma c_sc_bytes_eq s : c_sc_bytes Zops s = sc_bytes s.
Proof. reflexivity. Qed.
Local Opaque c_sc_bytes sc_bytes c_limbs12 limbs12 c_limbs24 limbs24.
Lemma sim_sc_muladd b x y z : simi (c_sc_muladd Zops b x y z) (sc_muladd b x y z).
Proof.
  unfold c_sc_muladd, sc_muladd. do 3 (eapply sim_bind; [apply sim_limbs12|intros ?]).
  eapply sim_bind; [apply sim_sc_muladd_prog|intros ?]. apply sim_ret. apply c_sc_bytes_eq.
Qed.
Lemma sim_sc_reduce b s : simi (c_sc_reduce Zops b s) (sc_reduce b s).
Proof.
  unfold c_sc_reduce, sc_reduce. eapply sim_bind; [apply sim_limbs24|intros ?].
  eapply sim_bind; [apply sim_sc_reduce_prog|intros ?]. apply sim_ret.
  apply (f_equal (fun l => l ++ skipn 32 s)). apply c_sc_bytes_eq.
Qed.
Lemma sim_sha512 b m : simi (c_hash_wrapper Zops P512 SHA512 b m) (sha512 b m).
Proof. exact (sim_hash_wrapper P512 SHA512 b m). Qed.
Lemma sim_sha512_parts b parts : simi (c_sha512_parts Zops b parts) (sha512_parts b parts).
Proof.
  unfold c_sha512_parts, sha512_parts.
  eapply sim_bind.
  - pose proof (sim_updates P512 SHA512 b parts (c_hdefault Zops P512 SHA512)) as H.
    rewrite hdefault_eq in H. exact H.
  - intros h. exact (sim_hwrite_digest P512 SHA512 b h _).
Qed.
Lemma c_clamp_ed_eq az : c_clamp_ed Zops az = clamp_ed az.
Proof. reflexivity. Qed.
Local Opaque c_clamp_ed clamp_ed c_hash_wrapper sha512 c_sha512_parts sha512_parts c_p3_tobytes p3_tobytes
  c_sc_reduce sc_reduce c_sc_muladd sc_muladd c_write_slice write_slice.
Lemma sim_ed_gen_pk b sk : simi (c_ed_gen_pk Zops b sk) (ed_gen_pk b sk).
Proof.
  unfold c_ed_gen_pk, ed_gen_pk. eapply sim_bind; [apply sim_assert|]. intros [].
  eapply sim_bind; [apply sim_sha512|]. intros az. cbv zeta. rewrite (c_clamp_ed_eq az).
  eapply sim_bind; [apply sim_from_scalarmult_base|]. intros a. apply sim_p3_tobytes.
Qed.
Lemma sim_ed_sign b m sk : simi (c_ed_sign Zops b m sk) (ed_sign b m sk).
Proof.
  unfold c_ed_sign, ed_sign. eapply sim_bind; [apply sim_assert|]. intros [].
  eapply sim_bind; [apply sim_sha512|]. intros az. cbv zeta. rewrite (c_clamp_ed_eq az).
  eapply sim_bind; [apply sim_from_scalarmult_base|]. intros a.
  eapply sim_bind; [apply sim_p3_tobytes|]. intros pk.
  eapply sim_bind; [apply sim_sha512_parts|]. intros n0.
  eapply sim_bind; [apply sim_sc_reduce|]. intros n1.
  eapply sim_bind; [apply sim_write_slice|]. intros s0.
  eapply sim_bind; [apply sim_from_scalarmult_base|]. intros r.
  eapply sim_bind; [apply sim_p3_tobytes|]. intros rb.
  eapply sim_bind; [apply sim_write_slice|]. intros s1.
  eapply sim_bind; [apply sim_sha512_parts|]. intros h0.
  eapply sim_bind; [apply sim_sc_reduce|]. intros h1.
  eapply sim_bind; [apply sim_sc_muladd|]. intros s.
  apply sim_write_slice.
Qed.

(** * Traces *)

Transparent c_fe_mul c_fe_sq c_fe_mul121666 c_fe_twice_sq c_fe_add c_fe_sub c_fe_subtract_from c_square_many
  c_fe_bytes c_run c_q_step c_ladder_step c_fe_invert c_fe_write_bytes c_fe_from_bytes c_scalarmult
  c_fe_is_negative c_fe_cmov c_cmov c_equal c_precomp_of c_select c_ge_madd c_p1p1_to_p3 c_p1p1_to_p2
  c_p2_dbl c_p3_dbl c_recode c_nibbles c_from_scalarmult_base c_load_3_at c_load_4_at c_limb3 c_limb4
  c_limb4_top c_sc_bytes c_limbs12 c_limbs24 c_clamp_ed c_hash_wrapper c_sha512_parts c_p3_tobytes
  c_sc_reduce c_sc_muladd c_idx.

Lemma wrel_eval b s1 s2 e : wrel anyr (c_eval Zops b s1 e) (c_eval Zops b s2 e).
Proof.
  induction e as [x|n|w e1 IH1 e2 IH2|w e1 IH1 e2 IH2|w e1 IH1 e2 IH2|e1 IH1 k|w e1 IH1 k|w e1 IH1];
    cbn [c_eval]; try (apply wrel_ret; exact I);
    try (eapply wrel_bind; [exact IH1|]; intros u1 u2 _; apply wrel_ret; exact I);
    (eapply wrel_bind; [exact IH1|]; intros u1 u2 _; eapply wrel_bind; [exact IH2|]; intros v1 v2 _; apply wrel_z_schk).
Qed.
Lemma wrel_exec b l : forall s1 s2, wrel anyr (c_exec Zops b l s1) (c_exec Zops b l s2).
Proof.
  induction l as [|[x e] l IH]; intros s1 s2; cbn [c_exec]; [apply wrel_ret; exact I|].
  eapply wrel_bind; [apply wrel_eval|]. intros v1 v2 _. apply IH.
Qed.
Lemma wrel_evals b s1 s2 es : wrel leq (c_evals Zops b s1 es) (c_evals Zops b s2 es).
Proof.
  induction es as [|e es IH]; cbn [c_evals]; [apply wrel_ret; reflexivity|].
  eapply wrel_bind; [apply wrel_eval|]. intros v1 v2 _. eapply wrel_bind; [apply IH|]. intros r1 r2 Hr.
  apply wrel_ret. unfold leq in *. cbn [length]. congruence.
Qed.
Lemma wrel_run b p v1 v2 : wrel leq (c_run Zops b p v1) (c_run Zops b p v2).
Proof. unfold c_run. eapply wrel_bind; [apply wrel_exec|]. intros s1 s2 _. apply wrel_evals. Qed.

Lemma wrel_load_3 x1 x2 : wrel anyr (c_load_3 Zops x1) (c_load_3 Zops x2).
Proof.
  unfold c_load_3. do 3 (eapply wrel_bind; [apply wrel_idx; reflexivity|intros ? ? _]). apply wrel_ret. exact I.
Qed.
Lemma wrel_load_4 x1 x2 : wrel anyr (c_load_4 Zops x1) (c_load_4 Zops x2).
Proof.
  unfold c_load_4. do 4 (eapply wrel_bind; [apply wrel_idx; reflexivity|intros ? ? _]). apply wrel_ret. exact I.
Qed.
Lemma wrel_load_3_at x1 x2 n : leq x1 x2 -> wrel anyr (c_load_3_at Zops x1 n) (c_load_3_at Zops x2 n).
Proof. intros H. eapply wrel_bind; [apply wrel_from; [exact H|reflexivity]|intros ? ? _]. apply wrel_load_3. Qed.
Lemma wrel_load_4_at x1 x2 n : leq x1 x2 -> wrel anyr (c_load_4_at Zops x1 n) (c_load_4_at Zops x2 n).
Proof. intros H. eapply wrel_bind; [apply wrel_from; [exact H|reflexivity]|intros ? ? _]. apply wrel_load_4. Qed.

Lemma wrel_limbs2 b op f1 : forall f2 g1 g2, leq f1 f2 -> leq g1 g2 ->
  wrel leq (c_limbs2 Zops b op f1 g1) (c_limbs2 Zops b op f2 g2).
Proof.
  induction f1 as [|x f1 IH]; intros [|y f2] g1 g2 Hf Hg; try discriminate Hf;
    cbn [c_limbs2]; [apply wrel_ret; reflexivity|].
  destruct g1 as [|u g1], g2 as [|v g2]; try discriminate Hg; [apply wrel_ret; reflexivity|].
  eapply wrel_bind; [apply wrel_z_schk|]. intros ? ? _.
  eapply wrel_bind; [apply IH; [injection Hf as Hf; exact Hf|injection Hg as Hg; exact Hg]|].
  intros r1 r2 Hr. apply wrel_ret. unfold leq in *. cbn [length]. congruence.
Qed.
Lemma wrel_fe_add b f1 f2 g1 g2 : leq f1 f2 -> leq g1 g2 -> wrel leq (c_fe_add Zops b f1 g1) (c_fe_add Zops b f2 g2).
Proof. apply wrel_limbs2. Qed.
Lemma wrel_fe_sub b f1 f2 g1 g2 : leq f1 f2 -> leq g1 g2 -> wrel leq (c_fe_sub Zops b f1 g1) (c_fe_sub Zops b f2 g2).
Proof. apply wrel_limbs2. Qed.
Lemma wrel_fe_subtract_from b f1 f2 g1 g2 : leq f1 f2 -> leq g1 g2 ->
  wrel leq (c_fe_subtract_from Zops b f1 g1) (c_fe_subtract_from Zops b f2 g2).
Proof. apply wrel_limbs2. Qed.
Lemma wrel_fe_mul b f1 f2 g1 g2 : wrel leq (c_fe_mul Zops b f1 g1) (c_fe_mul Zops b f2 g2).
Proof. apply wrel_run. Qed.
Lemma wrel_fe_sq b f1 f2 : wrel leq (c_fe_sq Zops b f1) (c_fe_sq Zops b f2).
Proof. apply wrel_run. Qed.
Lemma wrel_fe_mul121666 b f1 f2 : wrel leq (c_fe_mul121666 Zops b f1) (c_fe_mul121666 Zops b f2).
Proof. apply wrel_run. Qed.
Lemma wrel_fe_twice_sq b f1 f2 : wrel leq (c_fe_twice_sq Zops b f1) (c_fe_twice_sq Zops b f2).
Proof. apply wrel_run. Qed.
Lemma wrel_from_bytes_prog b f1 f2 : wrel leq (c_run Zops b from_bytes_prog f1) (c_run Zops b from_bytes_prog f2).
Proof. apply wrel_run. Qed.
Lemma wrel_write_bytes_prog b f1 f2 : wrel leq (c_run Zops b write_bytes_prog f1) (c_run Zops b write_bytes_prog f2).
Proof. apply wrel_run. Qed.
Lemma wrel_sc_muladd_prog b f1 f2 : wrel leq (c_run Zops b sc_muladd_prog f1) (c_run Zops b sc_muladd_prog f2).
Proof. apply wrel_run. Qed.
Lemma wrel_sc_reduce_prog b f1 f2 : wrel leq (c_run Zops b sc_reduce_prog f1) (c_run Zops b sc_reduce_prog f2).
Proof. apply wrel_run. Qed.
Local Opaque c_run.

Lemma zipw_leq {A B C D E F} (f : A -> B -> C) (g : D -> E -> F) l m l' m' :
  leq l l' -> leq m m' -> leq (zipwith f l m) (zipwith g l' m').
Proof. unfold leq. intros H H'. now rewrite !zipwith_length_min, H, H'. Qed.
Lemma cswap_leq f1 f2 g1 g2 c1 c2 : leq f1 f2 -> leq g1 g2 ->
  leq (fst (c_fe_cswap Zops f1 g1 c1)) (fst (c_fe_cswap Zops f2 g2 c2)) /\
  leq (snd (c_fe_cswap Zops f1 g1 c1)) (snd (c_fe_cswap Zops f2 g2 c2)).
Proof. intros Hf Hg. unfold c_fe_cswap. cbn [fst snd]. split; repeat (apply zipw_leq; auto). Qed.
Lemma wrel_fe_from_bytes b s1 s2 : leq s1 s2 -> wrel leq (c_fe_from_bytes Zops b s1) (c_fe_from_bytes Zops b s2).
Proof.
  intros H. unfold c_fe_from_bytes.
  eapply wrel_bind; [apply wrel_load_4|intros ? ? _].
  do 4 (eapply wrel_bind; [apply wrel_load_3_at; exact H|intros ? ? _]).
  eapply wrel_bind; [apply wrel_load_4_at; exact H|intros ? ? _].
  do 4 (eapply wrel_bind; [apply wrel_load_3_at; exact H|intros ? ? _]).
  apply wrel_from_bytes_prog.
Qed.
Lemma wrel_sq_times b n : forall f1 f2, leq f1 f2 -> wrel leq (c_sq_times Zops b n f1) (c_sq_times Zops b n f2).
Proof.
  induction n as [|n IH]; intros f1 f2 Hf; cbn [c_sq_times]; [apply wrel_ret; exact Hf|].
  eapply wrel_bind; [apply wrel_fe_sq|]. intros g1 g2 Hg. now apply IH.
Qed.
Lemma wrel_square_many b f1 f2 n : leq f1 f2 -> wrel leq (c_square_many Zops b f1 n) (c_square_many Zops b f2 n).
Proof. apply wrel_sq_times. Qed.
Local Opaque c_fe_mul c_fe_sq c_fe_mul121666 c_fe_twice_sq c_fe_add c_fe_sub c_fe_subtract_from c_square_many.
Local Ltac rfe :=
  lazymatch goal with
  | |- wrel _ (c_fe_mul _ _ _ _) _ => apply wrel_fe_mul
  | |- wrel _ (c_fe_sq _ _ _) _ => apply wrel_fe_sq
  | |- wrel _ (c_square_many _ _ _ _) _ => apply wrel_square_many; assumption
  | |- wrel _ (c_fe_add _ _ _ _) _ => apply wrel_fe_add; assumption
  | |- wrel _ (c_fe_sub _ _ _ _) _ => apply wrel_fe_sub; assumption
  | |- wrel _ (c_fe_subtract_from _ _ _ _) _ => apply wrel_fe_subtract_from; assumption
  | |- wrel _ (c_fe_mul121666 _ _ _) _ => apply wrel_fe_mul121666
  | |- wrel _ (c_fe_twice_sq _ _ _) _ => apply wrel_fe_twice_sq
  end.
Local Ltac rfes := repeat (eapply wrel_bind; [rfe|intros ? ? ?]).
Lemma wrel_fe_invert b z1 z2 : wrel leq (c_fe_invert Zops b z1) (c_fe_invert Zops b z2).
Proof. unfold c_fe_invert. rfes. rfe. Qed.
Lemma wrel_q_step b h1 h2 q1 q2 k : wrel anyr (c_q_step Zops b h1 q1 k) (c_q_step Zops b h2 q2 k).
Proof. unfold c_q_step. eapply wrel_bind; [apply wrel_z_schk|intros ? ? _]. apply wrel_ret. exact I. Qed.
Lemma fe_bytes_leq h1 h2 : leq (c_fe_bytes Zops h1) (c_fe_bytes Zops h2).
Proof. exact eq_refl. Qed.
Local Opaque c_fe_bytes c_q_step.
Lemma wrel_fe_write_bytes b h1 h2 : wrel leq (c_fe_write_bytes Zops b h1) (c_fe_write_bytes Zops b h2).
Proof.
  unfold c_fe_write_bytes.
  do 2 (eapply wrel_bind; [apply wrel_z_schk|intros ? ? _]).
  do 10 (eapply wrel_bind; [apply wrel_q_step|intros ? ? _]).
  eapply wrel_bind; [apply wrel_write_bytes_prog|intros ? ? _]. apply wrel_ret. apply fe_bytes_leq.
Qed.

Definition Rl (s t : c_ladder (W := Z)) : Prop :=
  leq (c_lx2 s) (c_lx2 t) /\ leq (c_lz2 s) (c_lz2 t) /\ leq (c_lx3 s) (c_lx3 t) /\ leq (c_lz3 s) (c_lz3 t).
Local Opaque c_fe_cswap.
Lemma wrel_ladder_step b x1 x2 s1 s2 t1 t2 : leq x1 x2 -> Rl s1 s2 ->
  wrel Rl (c_ladder_step Zops b x1 s1 t1) (c_ladder_step Zops b x2 s2 t2).
Proof.
  intros Hx (H1 & H2 & H3 & H4). unfold c_ladder_step.
  destruct (cswap_leq _ _ _ _ (w_xor Zops (c_lswap s1) t1) (w_xor Zops (c_lswap s2) t2) H1 H3) as [K1 K3].
  destruct (cswap_leq _ _ _ _ (w_xor Zops (c_lswap s1) t1) (w_xor Zops (c_lswap s2) t2) H2 H4) as [K2 K4].
  destruct (c_fe_cswap Zops (c_lx2 s1) (c_lx3 s1) _) as [a1 b1].
  destruct (c_fe_cswap Zops (c_lz2 s1) (c_lz3 s1) _) as [d1 e1].
  destruct (c_fe_cswap Zops (c_lx2 s2) (c_lx3 s2) _) as [a2 b2].
  destruct (c_fe_cswap Zops (c_lz2 s2) (c_lz3 s2) _) as [d2 e2].
  cbn [fst snd] in K1, K2, K3, K4. clear H1 H2 H3 H4.
  rfes. apply wrel_ret. unfold Rl. cbn [c_lx2 c_lz2 c_lx3 c_lz3]. auto.
Qed.
Local Opaque c_ladder_step.
Lemma wrel_ladder_loop b e1 e2 x1 x2 n : leq x1 x2 -> forall s1 s2, Rl s1 s2 ->
  wrel Rl (c_ladder_loop Zops b e1 x1 n s1) (c_ladder_loop Zops b e2 x2 n s2).
Proof.
  intros Hx. induction n as [|n IH]; intros s1 s2 Hs; cbn [c_ladder_loop].
  - eapply wrel_bind; [apply wrel_tick; reflexivity|intros _ _ _]. now apply wrel_ret.
  - eapply wrel_bind; [apply wrel_tick; reflexivity|intros _ _ _].
    eapply wrel_bind; [apply wrel_idx; reflexivity|intros ? ? _].
    eapply wrel_bind; [apply wrel_ladder_step; [exact Hx|exact Hs]|intros ? ? ?]. now apply IH.
Qed.
Local Opaque c_fe_invert c_fe_write_bytes c_fe_from_bytes.
Lemma wrel_scalarmult b n1 n2 p1 p2 : leq n1 n2 -> leq p1 p2 ->
  wrel leq (c_scalarmult Zops b n1 p1) (c_scalarmult Zops b n2 p2).
Proof.
  intros Hn Hp. unfold c_scalarmult. generalize 255%nat. intros N.
  eapply wrel_bind; [apply wrel_assert_any|intros _ _ _].
  eapply wrel_bind; [apply wrel_assert_any|intros _ _ _].
  eapply wrel_bind; [apply wrel_fe_from_bytes, Hp|]. intros x1 x2 Hx.
  eapply wrel_bind; [apply wrel_ladder_loop; [exact Hx|]|].
  { unfold Rl. cbn [c_lx2 c_lz2 c_lx3 c_lz3]. repeat split. exact Hx. }
  intros s1 s2 (H1 & H2 & H3 & H4).
  destruct (cswap_leq _ _ _ _ (c_lswap s1) (c_lswap s2) H1 H3) as [K1 K3].
  destruct (cswap_leq _ _ _ _ (c_lswap s1) (c_lswap s2) H2 H4) as [K2 K4].
  destruct (c_fe_cswap Zops (c_lx2 s1) (c_lx3 s1) _) as [a1 b1].
  destruct (c_fe_cswap Zops (c_lz2 s1) (c_lz3 s1) _) as [d1 e1].
  destruct (c_fe_cswap Zops (c_lx2 s2) (c_lx3 s2) _) as [a2 b2].
  destruct (c_fe_cswap Zops (c_lz2 s2) (c_lz3 s2) _) as [d2 e2].
  eapply wrel_bind; [apply wrel_fe_invert|intros ? ? _].
  eapply wrel_bind; [apply wrel_fe_mul|intros ? ? _]. apply wrel_fe_write_bytes.
Qed.
Local Opaque c_scalarmult.
Lemma wrel_x_gen_pk b s1 s2 : leq s1 s2 -> wrel leq (c_x_gen_pk Zops b s1) (c_x_gen_pk Zops b s2).
Proof. intros H. unfold c_x_gen_pk. apply wrel_scalarmult; [exact H|exact eq_refl]. Qed.
Lemma wrel_x_dh b p1 p2 s1 s2 : leq p1 p2 -> leq s1 s2 -> wrel leq (c_x_dh Zops b p1 s1) (c_x_dh Zops b p2 s2).
Proof. intros H H'. unfold c_x_dh. now apply wrel_scalarmult. Qed.

Definition RP2 (p q : c_GeP2 (W := Z)) : Prop :=
  leq (c_p2x p) (c_p2x q) /\ leq (c_p2y p) (c_p2y q) /\ leq (c_p2z p) (c_p2z q).
Definition RP3 (p q : c_GeP3 (W := Z)) : Prop :=
  leq (c_p3x p) (c_p3x q) /\ leq (c_p3y p) (c_p3y q) /\ leq (c_p3z p) (c_p3z q) /\ leq (c_p3t p) (c_p3t q).
Lemma wrel_ge_madd b p1 p2 q1 q2 : RP3 p1 p2 -> wrel anyr (c_ge_madd Zops b p1 q1) (c_ge_madd Zops b p2 q2).
Proof. intros (H1 & H2 & H3 & H4). unfold c_ge_madd. rfes. apply wrel_ret. exact I. Qed.
Lemma wrel_p1p1_to_p2 b p1 p2 : wrel RP2 (c_p1p1_to_p2 Zops b p1) (c_p1p1_to_p2 Zops b p2).
Proof. unfold c_p1p1_to_p2. rfes. apply wrel_ret. unfold RP2. cbn [c_p2x c_p2y c_p2z]. auto. Qed.
Lemma wrel_p1p1_to_p3 b p1 p2 : wrel RP3 (c_p1p1_to_p3 Zops b p1) (c_p1p1_to_p3 Zops b p2).
Proof. unfold c_p1p1_to_p3. rfes. apply wrel_ret. unfold RP3. cbn [c_p3x c_p3y c_p3z c_p3t]. auto. Qed.
Lemma wrel_p2_dbl b p1 p2 : RP2 p1 p2 -> wrel anyr (c_p2_dbl Zops b p1) (c_p2_dbl Zops b p2).
Proof. intros (H1 & H2 & H3). unfold c_p2_dbl. rfes. apply wrel_ret. exact I. Qed.
Lemma wrel_p3_dbl b p1 p2 : RP3 p1 p2 -> wrel anyr (c_p3_dbl Zops b p1) (c_p3_dbl Zops b p2).
Proof. intros (H1 & H2 & H3 & H4). unfold c_p3_dbl. apply wrel_p2_dbl. unfold RP2. cbn. auto. Qed.
Lemma wrel_fe_is_negative b f1 f2 : wrel anyr (c_fe_is_negative Zops b f1) (c_fe_is_negative Zops b f2).
Proof.
  unfold c_fe_is_negative. eapply wrel_bind; [apply wrel_fe_write_bytes|intros ? ? _].
  eapply wrel_bind; [apply wrel_idx; reflexivity|intros ? ? _]. apply wrel_ret. exact I.
Qed.
Local Opaque c_fe_is_negative.
Lemma wrel_p3_tobytes b p1 p2 : wrel leq (c_p3_tobytes Zops b p1) (c_p3_tobytes Zops b p2).
Proof.
  unfold c_p3_tobytes. eapply wrel_bind; [apply wrel_fe_invert|intros ? ? _]. rfes.
  eapply wrel_bind; [apply wrel_fe_write_bytes|intros ? ? ?].
  eapply wrel_bind; [apply wrel_fe_is_negative|intros ? ? _].
  eapply wrel_bind; [apply wrel_idx; reflexivity|intros ? ? _]. apply wrel_ret.
  unfold leq. rewrite !upd_length. assumption.
Qed.
Lemma wrel_fe_neg b f1 : forall f2, leq f1 f2 -> wrel leq (c_fe_neg Zops b f1) (c_fe_neg Zops b f2).
Proof.
  induction f1 as [|x f1 IH]; intros [|y f2] H; try discriminate H; cbn [c_fe_neg]; [apply wrel_ret; reflexivity|].
  eapply wrel_bind; [apply wrel_z_schk|intros ? ? _].
  eapply wrel_bind; [apply IH; injection H as H; exact H|]. intros r1 r2 Hr.
  apply wrel_ret. unfold leq in *. cbn [length]. congruence.
Qed.
Definition RPre (p q : c_GePrecomp (W := Z)) : Prop :=
  leq (c_yplusx p) (c_yplusx q) /\ leq (c_yminusx p) (c_yminusx q) /\ leq (c_xy2d p) (c_xy2d q).
Lemma RPre_refl p : RPre p p.
Proof. unfold RPre, leq. auto. Qed.
Lemma fe_cmov_leq f1 f2 g1 g2 c1 c2 : leq f1 f2 -> leq g1 g2 ->
  leq (c_fe_cmov Zops f1 g1 c1) (c_fe_cmov Zops f2 g2 c2).
Proof. intros. unfold c_fe_cmov. apply zipw_leq; [auto|]. now apply zipw_leq. Qed.
Lemma cmov_leq t1 t2 u1 u2 c1 c2 : RPre t1 t2 -> RPre u1 u2 -> RPre (c_cmov Zops t1 u1 c1) (c_cmov Zops t2 u2 c2).
Proof.
  intros (H1 & H2 & H3) (K1 & K2 & K3). unfold c_cmov, RPre. cbn [c_yplusx c_yminusx c_xy2d].
  repeat split; now apply fe_cmov_leq.
Qed.
Lemma wrel_idx_eq {A} (l : list A) i : wrel eq (c_idx l i) (c_idx l i).
Proof. intros a1 a2 E1 E2. rewrite E1 in E2. split; congruence. Qed.
Local Opaque c_cmov c_equal c_precomp_of c_negative.
Lemma wrel_select b pos e1 e2 : wrel RPre (c_select Zops b pos e1) (c_select Zops b pos e2).
Proof.
  unfold c_select. generalize BASE. intros B.
  eapply wrel_bind; [apply wrel_z_schk|]. intros b1 b2 _.
  eapply wrel_bind; [apply wrel_idx_eq|]. intros row _ <-.
  set (t1 := c_cmov Zops _ _ (c_equal Zops b1 8)). set (t2 := c_cmov Zops _ _ (c_equal Zops b2 8)).
  assert (Ht : RPre t1 t2).
  { unfold t1, t2. repeat (apply cmov_leq; [|apply RPre_refl]). apply RPre_refl. }
  clearbody t1 t2. cbv zeta. eapply wrel_bind; [apply wrel_fe_neg; apply Ht|]. intros n1 n2 Hn.
  apply wrel_ret. apply cmov_leq; [exact Ht|]. destruct Ht as (H1 & H2 & _).
  unfold RPre. cbn [c_yplusx c_yminusx c_xy2d]. auto.
Qed.
Local Opaque c_select c_ge_madd c_p1p1_to_p3 c_p1p1_to_p2 c_p2_dbl c_p3_dbl.
Lemma wrel_recode b e1 : forall e2 c1 c2, leq e1 e2 -> wrel leq (c_recode Zops b c1 e1) (c_recode Zops b c2 e2).
Proof.
  induction e1 as [|x e1 IH]; intros [|y e2] c1 c2 H; try discriminate H; [apply wrel_ret; reflexivity|].
  injection H as H. destruct e1 as [|x' e1], e2 as [|y' e2]; try discriminate H.
  - cbn [c_recode]. eapply wrel_bind; [apply wrel_z_schk|intros ? ? _]. apply wrel_ret. reflexivity.
  - change (wrel leq
      (let* v := w_schk Zops b 8 (w_add Zops x c1) in
       let* c := w_schk Zops b 8 (w_add Zops v (w_lit Zops 8)) in
       let c := w_shr Zops c 4 in
       let* v := w_schk Zops b 8 (w_sub Zops v (c_shl8 Zops c 4)) in
       let* r := c_recode Zops b c (x' :: e1) in ret (v :: r))
      (let* v := w_schk Zops b 8 (w_add Zops y c2) in
       let* c := w_schk Zops b 8 (w_add Zops v (w_lit Zops 8)) in
       let c := w_shr Zops c 4 in
       let* v := w_schk Zops b 8 (w_sub Zops v (c_shl8 Zops c 4)) in
       let* r := c_recode Zops b c (y' :: e2) in ret (v :: r))).
    eapply wrel_bind; [apply wrel_z_schk|intros ? ? _].
    eapply wrel_bind; [apply wrel_z_schk|intros ? ? _]. cbv zeta.
    eapply wrel_bind; [apply wrel_z_schk|intros ? ? _].
    eapply wrel_bind; [apply IH; exact H|intros r1 r2 Hr]. apply wrel_ret.
    unfold leq in *. cbn [length]. congruence.
Qed.
Lemma nibbles_leq a1 a2 : leq a1 a2 -> leq (c_nibbles Zops a1) (c_nibbles Zops a2).
Proof.
  intros H. unfold c_nibbles. generalize (firstn_leq 32 _ _ H).
  generalize (firstn 32 a1), (firstn 32 a2). clear. intros l1.
  induction l1 as [|x l1 IH]; intros [|y l2] H; try discriminate H; [reflexivity|].
  injection H as H. specialize (IH l2 H). unfold leq in *. cbn [flat_map app length] in *. congruence.
Qed.
Lemma wrel_base_loop b e1 e2 n : forall i h1 h2, RP3 h1 h2 ->
  wrel RP3 (c_base_loop Zops b e1 n i h1) (c_base_loop Zops b e2 n i h2).
Proof.
  induction n as [|n IH]; intros i h1 h2 Hh; cbn [c_base_loop].
  - eapply wrel_bind; [apply wrel_tick; reflexivity|intros _ _ _]. now apply wrel_ret.
  - eapply wrel_bind; [apply wrel_tick; reflexivity|intros _ _ _].
    eapply wrel_bind; [apply wrel_idx; reflexivity|intros ? ? _].
    eapply wrel_bind; [apply wrel_select|intros ? ? _].
    eapply wrel_bind; [apply wrel_ge_madd, Hh|intros ? ? _].
    eapply wrel_bind; [apply wrel_p1p1_to_p3|intros ? ? ?]. now apply IH.
Qed.
Local Opaque c_recode c_nibbles.
Lemma wrel_from_scalarmult_base b a1 a2 : leq a1 a2 ->
  wrel RP3 (c_from_scalarmult_base Zops b a1) (c_from_scalarmult_base Zops b a2).
Proof.
  intros H. unfold c_from_scalarmult_base. generalize 32%nat. intros N.
  eapply wrel_bind; [apply wrel_recode, nibbles_leq, H|intros e1 e2 _].
  eapply wrel_bind; [apply wrel_base_loop; repeat split|intros ? ? ?].
  eapply wrel_bind; [apply wrel_p3_dbl; assumption|intros ? ? _].
  eapply wrel_bind; [apply wrel_p1p1_to_p2|intros ? ? ?].
  eapply wrel_bind; [apply wrel_p2_dbl; assumption|intros ? ? _].
  eapply wrel_bind; [apply wrel_p1p1_to_p2|intros ? ? ?].
  eapply wrel_bind; [apply wrel_p2_dbl; assumption|intros ? ? _].
  eapply wrel_bind; [apply wrel_p1p1_to_p2|intros ? ? ?].
  eapply wrel_bind; [apply wrel_p2_dbl; assumption|intros ? ? _].
  eapply wrel_bind; [apply wrel_p1p1_to_p3|intros ? ? ?].
  apply wrel_base_loop. assumption.
Qed.
Local Opaque c_from_scalarmult_base c_load_3_at c_load_4_at.

Lemma wrel_limb3 s1 s2 n k : leq s1 s2 -> wrel anyr (c_limb3 Zops s1 n k) (c_limb3 Zops s2 n k).
Proof. intros H. eapply wrel_bind; [apply wrel_load_3_at, H|intros ? ? _]. apply wrel_ret. exact I. Qed.
Lemma wrel_limb4 s1 s2 n k : leq s1 s2 -> wrel anyr (c_limb4 Zops s1 n k) (c_limb4 Zops s2 n k).
Proof. intros H. eapply wrel_bind; [apply wrel_load_4_at, H|intros ? ? _]. apply wrel_ret. exact I. Qed.
Lemma wrel_limb4_top s1 s2 n k : leq s1 s2 -> wrel anyr (c_limb4_top Zops s1 n k) (c_limb4_top Zops s2 n k).
Proof. intros H. eapply wrel_bind; [apply wrel_load_4_at, H|intros ? ? _]. apply wrel_ret. exact I. Qed.
Local Opaque c_limb3 c_limb4 c_limb4_top.
Local Ltac rlimb :=
  eapply wrel_bind; [lazymatch goal with
    | |- wrel _ (c_limb3 _ _ _ _) _ => apply wrel_limb3; assumption
    | |- wrel _ (c_limb4 _ _ _ _) _ => apply wrel_limb4; assumption
    | |- wrel _ (c_limb4_top _ _ _ _) _ => apply wrel_limb4_top; assumption end|intros ? ? _].
Lemma wrel_limbs_0_10 s1 s2 : leq s1 s2 -> wrel leq (c_limbs_0_10 Zops s1) (c_limbs_0_10 Zops s2).
Proof. intros H. unfold c_limbs_0_10. do 11 rlimb. apply wrel_ret. reflexivity. Qed.
Local Opaque c_limbs_0_10.
Lemma wrel_limbs12 s1 s2 : leq s1 s2 -> wrel anyr (c_limbs12 Zops s1) (c_limbs12 Zops s2).
Proof.
  intros H. unfold c_limbs12. eapply wrel_bind; [apply wrel_limbs_0_10, H|intros ? ? _]. rlimb.
  apply wrel_ret. exact I.
Qed.
Lemma wrel_limbs24 s1 s2 : leq s1 s2 -> wrel anyr (c_limbs24 Zops s1) (c_limbs24 Zops s2).
Proof.
  intros H. unfold c_limbs24. eapply wrel_bind; [apply wrel_limbs_0_10, H|intros ? ? _]. do 13 rlimb.
  apply wrel_ret. exact I.
Qed.
Lemma sc_bytes_leq s1 s2 : leq (c_sc_bytes Zops s1) (c_sc_bytes Zops s2).
Proof. exact eq_refl. Qed.
Local Opaque c_sc_bytes c_limbs12 c_limbs24.
Lemma wrel_sc_muladd b x1 x2 y1 y2 z1 z2 : leq x1 x2 -> leq y1 y2 -> leq z1 z2 ->
  wrel leq (c_sc_muladd Zops b x1 y1 z1) (c_sc_muladd Zops b x2 y2 z2).
Proof.
  intros. unfold c_sc_muladd. do 3 (eapply wrel_bind; [apply wrel_limbs12; assumption|intros ? ? _]).
  eapply wrel_bind; [apply wrel_sc_muladd_prog|intros ? ? _]. apply wrel_ret. apply sc_bytes_leq.
Qed.
Lemma wrel_sc_reduce b s1 s2 : leq s1 s2 -> wrel leq (c_sc_reduce Zops b s1) (c_sc_reduce Zops b s2).
Proof.
  intros H. unfold c_sc_reduce. eapply wrel_bind; [apply wrel_limbs24, H|intros ? ? _].
  eapply wrel_bind; [apply wrel_sc_reduce_prog|intros r1 r2 _]. apply wrel_ret.
  unfold leq. rewrite !app_length. rewrite (sc_bytes_leq r1 r2). f_equal. now apply skipn_leq.
Qed.
Lemma wrel_sha512_parts b l1 l2 : Forall2 leq l1 l2 -> wrel leq (c_sha512_parts Zops b l1) (c_sha512_parts Zops b l2).
Proof.
  intros H. unfold c_sha512_parts. eapply wrel_bind; [apply rel_wrel, rel_updates; [exact H|apply Rp_refl]|].
  intros h1 h2 Hh. apply rel_wrel, rel_hwrite_digest; [exact Hh|exact eq_refl].
Qed.
Lemma clamp_ed_leq a1 a2 : leq a1 a2 -> leq (c_clamp_ed Zops a1) (c_clamp_ed Zops a2).
Proof. unfold leq, c_clamp_ed. cbv zeta. now rewrite !upd_length. Qed.
Local Opaque c_clamp_ed c_hash_wrapper c_sha512_parts c_p3_tobytes c_sc_reduce c_sc_muladd.
Lemma wrel_ed_gen_pk b s1 s2 : leq s1 s2 -> wrel leq (c_ed_gen_pk Zops b s1) (c_ed_gen_pk Zops b s2).
Proof.
  intros H. unfold c_ed_gen_pk. eapply wrel_bind; [apply wrel_assert_any|intros _ _ _].
  eapply wrel_bind; [apply rel_wrel, rel_hash_wrapper, H|intros az1 az2 Ha]. cbv zeta.
  eapply wrel_bind; [apply wrel_from_scalarmult_base, clamp_ed_leq, Ha|intros ? ? _]. apply wrel_p3_tobytes.
Qed.
Lemma wrel_ed_sign b m1 m2 s1 s2 : leq m1 m2 -> leq s1 s2 -> wrel leq (c_ed_sign Zops b m1 s1) (c_ed_sign Zops b m2 s2).
Proof.
  intros Hm H. unfold c_ed_sign. eapply wrel_bind; [apply wrel_assert_any|intros _ _ _].
  eapply wrel_bind; [apply rel_wrel, rel_hash_wrapper, H|intros az1 az2 Ha0]. cbv zeta.
  pose proof (clamp_ed_leq _ _ Ha0) as Ha. clear Ha0. revert Ha.
  generalize (c_clamp_ed Zops az1), (c_clamp_ed Zops az2). clear az1 az2. intros az1 az2 Ha.
  eapply wrel_bind; [apply wrel_from_scalarmult_base, Ha|intros ? ? _].
  eapply wrel_bind; [apply wrel_p3_tobytes|intros pk1 pk2 Hpk].
  eapply wrel_bind; [apply wrel_sha512_parts; repeat constructor; [now apply skipn_leq|exact Hm]|intros n1 n2 Hn].
  eapply wrel_bind; [apply wrel_sc_reduce, Hn|intros q1 q2 Hq].
  eapply wrel_bind; [apply wrel_write_slice; [exact eq_refl|reflexivity|exact Hpk]|intros g1 g2 Hg].
  eapply wrel_bind; [apply wrel_from_scalarmult_base, Hq|intros ? ? _].
  eapply wrel_bind; [apply wrel_p3_tobytes|intros rb1 rb2 Hrb].
  eapply wrel_bind; [apply wrel_write_slice; [exact Hg|reflexivity|exact Hrb]|intros k1 k2 Hk].
  eapply wrel_bind; [apply wrel_sha512_parts; repeat constructor; [exact Hk|exact Hm]|intros h1 h2 Hh].
  eapply wrel_bind; [apply wrel_sc_reduce, Hh|intros j1 j2 Hj].
  eapply wrel_bind; [apply wrel_sc_muladd; assumption|intros w1 w2 Hw].
  apply wrel_write_slice; [exact Hk|reflexivity|exact Hw].
Qed.
