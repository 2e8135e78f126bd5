(** Streaming interface of the SHA-2 model: every history of updates. *)
From Verif Require Import BaseFacts M_Sha2 S_Sha2 P_Sha2 M_Hmac Hist.
From Coq Require Import ZifyBool ZifyNat.

Lemma be_encode_zeros n m x : 0 <= x < 256 ^ Z.of_nat m ->
  be_encode (n + m) x = repeat 0 n ++ be_encode m x.
Proof.
  intros Hx.
  assert (H : forall m x, 0 <= x < 256 ^ Z.of_nat m -> le_encode (m + n) x = le_encode m x ++ repeat 0 n).
  { clear. induction m as [|m IH]; intros x Hx.
    - cbn in Hx. assert (x = 0) by lia. subst x. cbn [Nat.add app le_encode].
      induction n as [|n IHn]; [reflexivity|]. cbn [le_encode repeat]. rewrite Z.mod_0_l, Z.div_0_l by lia. now rewrite IHn.
    - cbn [Nat.add le_encode app]. f_equal. apply IH.
      replace (Z.of_nat (S m)) with (1 + Z.of_nat m) in Hx by lia. rewrite Z.pow_add_r in Hx by lia.
      split; [apply Z.div_pos; lia | apply Z.div_lt_upper_bound; lia]. }
  unfold be_encode. rewrite Nat.add_comm, H, rev_app_distr by assumption. f_equal.
  clear. induction n as [|n IH]; [reflexivity|]. cbn [repeat rev]. rewrite IH.
  clear. induction n as [|n IH]; [reflexivity|]. cbn [repeat app]. now rewrite IH.
Qed.

Section Stream.
Variables (P : sha_params) (A : algorithm) (V : variant).
Hypothesis M : matches P A V.
Let bb := block_bytes V.
Let good := good_state V.

Lemma bb_pos : (64 <= bb <= 128)%nat.
Proof. unfold bb, block_bytes. pose proof (m_wpos _ _ _ M). lia. Qed.

Lemma ne_of_bb (c : list Z) : length c = bb -> c <> [].
Proof. pose proof bb_pos as Hp. intros Hc ->. rewrite <- Hc in Hp. cbn [length] in Hp. lia. Qed.

Definition fold_full (full : list Z) : list Z := fold_left (compress V) (chunks bb full) (IV V).

Lemma good_IV : good (IV V).
Proof.
  split; [apply (m_ivlen _ _ _ M)|]. pose proof (m_ivok _ _ _ M) as H.
  rewrite forallb_forall in H. apply Forall_forall. intros x Hx. specialize (H x Hx). lia.
Qed.

Lemma fold_compress_good cs s : good s -> Forall bytes cs -> Forall (fun c => length c = bb) cs ->
  good (fold_left (compress V) cs s).
Proof.
  intros Hs Hb Hl. revert s Hs. induction cs as [|c cs IH]; intros s Hs; [assumption|].
  inversion_clear Hb. inversion_clear Hl. cbn [fold_left]. apply IH; auto.
  apply (process_eq P A V M); auto.
Qed.

Lemma fold_full_good full k : bytes full -> length full = (k * bb)%nat -> good (fold_full full).
Proof.
  intros Hb Hl. pose proof bb_pos. unfold fold_full.
  apply fold_compress_good; [apply good_IV| |].
  - apply chunks_bytes; [lia|assumption].
  - apply (chunks_full bb k full); [lia|assumption].
Qed.

(** The state after absorbing [full ++ rest], [full] a whole number of blocks. *)
Record Inv (p : processor) (full rest : list Z) : Prop := {
  i_full : exists k, length full = (k * bb)%nat;
  i_bfull : bytes full;
  i_brest : bytes rest;
  i_state : p_state p = fold_full full;
  i_buflen : length (p_buffer p) = bb;
  i_bufbytes : bytes (p_buffer p);
  i_off : p_offset p = length rest;
  i_rest : (length rest < bb)%nat;
  i_buf : firstn (length rest) (p_buffer p) = rest }.

Lemma Inv_new : Inv (proc_new P A) [] [].
Proof.
  pose proof bb_pos. unfold proc_new. constructor; cbn [p_state p_buffer p_offset length].
  - exists O. reflexivity.
  - constructor.
  - constructor.
  - apply (m_iv _ _ _ M).
  - rewrite repeat_length. apply (m_block _ _ _ M).
  - apply bytes_repeat. unfold byte_ok; lia.
  - reflexivity.
  - lia.
  - reflexivity.
Qed.

Lemma fold_full_snoc full c k : length full = (k * bb)%nat -> length c = bb ->
  fold_full (full ++ c) = compress V (fold_full full) c.
Proof.
  intros Hk Hc. pose proof bb_pos. unfold fold_full. rewrite (chunks_app_full bb k) by (auto; lia).
  rewrite fold_left_app. rewrite (chunks_short bb c) by (try (apply ne_of_bb; assumption); lia).
  reflexivity.
Qed.

Lemma update_loop_inv : forall input p full, bytes input -> Inv p full [] ->
  exists p' full' rest', update_loop P (chunks bb input) p = Ok p' /\ full' ++ rest' = full ++ input
    /\ Inv p' full' rest' /\ p_len p' = p_len p.
Proof.
  pose proof bb_pos as Hbb.
  intros input. induction input as [|input Hne IH] using (chunks_ind bb ltac:(lia)); intros p full Hb HI.
  - exists p, full, []. rewrite chunks_nil. cbn [update_loop]. auto.
  - rewrite chunks_cons by (auto; lia). cbn [update_loop]. rewrite (i_buflen _ _ _ HI).
    destruct (Nat.ltb_spec (length (firstn bb input)) bb) as [Hlt|Hge].
    + rewrite firstn_length in Hlt.
      assert (Hs : (length input < bb)%nat) by lia.
      rewrite (firstn_all2 input) by lia. rewrite skipn_all2 by lia. rewrite chunks_nil.
      rewrite write_slice_ok by (cbn [Nat.add]; rewrite (i_buflen _ _ _ HI); lia).
      cbn [bind update_loop firstn app Nat.add].
      eexists _, full, input. split; [reflexivity|]. split; [reflexivity|]. split; [|reflexivity].
      destruct HI. constructor; cbn [p_state p_buffer p_offset]; auto.
      * rewrite app_length, skipn_length. lia.
      * apply bytes_app; split; [assumption|]. apply bytes_skipn; assumption.
      * rewrite firstn_app, firstn_all, Nat.sub_diag. cbn. now rewrite app_nil_r.
    + assert (Hfl : length (firstn bb input) = bb) by (rewrite firstn_length in *; lia).
      assert (Hbf : bytes (firstn bb input)) by (apply bytes_firstn; assumption).
      destruct (i_full _ _ _ HI) as [k Hk].
      assert (Hg : good (p_state p)).
      { rewrite (i_state _ _ _ HI). apply fold_full_good with k; [apply (i_bfull _ _ _ HI)|assumption]. }
      destruct (process_eq P A V M (p_state p) (firstn bb input) Hg Hbf Hfl) as [Hp Hg'].
      edestruct (IH {| p_state := process P (p_state p) (firstn bb input); p_buffer := p_buffer p;
                 p_offset := p_offset p; p_len := p_len p |} (full ++ firstn bb input))
        as (p' & f' & r' & E1 & E2 & E3 & E4).
      * apply bytes_skipn; assumption.
      * destruct HI. constructor; cbn [p_state p_buffer p_offset]; auto.
        -- exists (S k). rewrite app_length. lia.
        -- apply bytes_app; auto.
        -- rewrite Hp, (fold_full_snoc _ _ k) by assumption. congruence.
      * exists p', f', r'. split; [exact E1|]. split; [|split; [exact E3|exact E4]].
        rewrite E2, <- app_assoc, firstn_skipn. reflexivity.
Qed.

Lemma proc_update_inv b p full rest input l : bytes input -> Inv p full rest ->
  uchk b 64 (p_len p + len input) = Ok l ->
  exists p' full' rest', proc_update P b p input = Ok p' /\ full' ++ rest' = (full ++ rest) ++ input
    /\ Inv p' full' rest' /\ p_len p' = l.
Proof.
  pose proof bb_pos as Hbb. intros Hb HI Hl. unfold proc_update.
  rewrite Hl. cbn [bind].
  pose proof (i_rest _ _ _ HI) as Hr. pose proof (i_off _ _ _ HI) as Ho. pose proof (i_buflen _ _ _ HI) as Hbl.
  rewrite assertb_true by lia. cbn [bind]. rewrite Hbl, Ho.
  destruct (Nat.ltb_spec 0 (length rest)) as [Hpos|Hz].
  - destruct (Nat.ltb_spec (length input) (bb - length rest)) as [Hlt|Hge].
    + rewrite write_slice_ok by (rewrite Hbl; lia). cbn [bind].
      eexists _, full, (rest ++ input). split; [reflexivity|]. split; [apply app_assoc|]. split; [|reflexivity].
      destruct HI. constructor; cbn [p_state p_buffer p_offset]; auto.
      * apply bytes_app; auto.
      * rewrite !app_length, firstn_length, skipn_length. lia.
      * rewrite !bytes_app. repeat split; auto; [apply bytes_firstn|apply bytes_skipn]; assumption.
      * rewrite app_length; lia.
      * rewrite app_length; lia.
      * rewrite i_buf0. rewrite app_assoc, firstn_app, firstn_all, Nat.sub_diag. cbn. now rewrite app_nil_r.
    + rewrite write_slice_ok.
      2:{ rewrite Hbl, firstn_length; lia. }
      cbn [bind].
      set (sp := (bb - length rest)%nat) in *.
      assert (Hfl : length (firstn sp input) = sp) by (rewrite firstn_length; lia).
      rewrite Hfl. rewrite (i_buf _ _ _ HI).
      rewrite (skipn_all2 (p_buffer p)) by (rewrite Hbl; lia). rewrite app_nil_r.
      set (buf := rest ++ firstn sp input).
      assert (Hbuf : length buf = bb) by (unfold buf; rewrite app_length; lia).
      assert (Hbb2 : bytes buf).
      { unfold buf. apply bytes_app. split; [apply (i_brest _ _ _ HI)|apply bytes_firstn; assumption]. }
      rewrite Hbuf. destruct (i_full _ _ _ HI) as [k Hk].
      assert (Hg : good (p_state p)).
      { rewrite (i_state _ _ _ HI). apply fold_full_good with k; [apply (i_bfull _ _ _ HI)|assumption]. }
      destruct (process_eq P A V M (p_state p) buf Hg Hbb2 Hbuf) as [Hp Hg'].
      edestruct (update_loop_inv (skipn sp input)
        {| p_state := process P (p_state p) buf; p_buffer := buf; p_offset := 0; p_len := l |}
        (full ++ buf)) as (p' & f' & r' & E1 & E2 & E3 & E4).
      * apply bytes_skipn; assumption.
      * destruct HI. constructor; cbn [p_state p_buffer p_offset length]; auto.
        -- exists (S k). rewrite app_length. lia.
        -- apply bytes_app; auto.
        -- constructor.
        -- rewrite Hp, (fold_full_snoc _ _ k) by assumption. congruence.
        -- lia.
      * exists p', f', r'. split; [exact E1|]. split; [|split; [exact E3|exact E4]].
        rewrite E2. unfold buf. rewrite <- !app_assoc. now rewrite firstn_skipn.
  - destruct rest; [|cbn in Hz; lia]. rewrite app_nil_r.
    edestruct (update_loop_inv input
        {| p_state := p_state p; p_buffer := p_buffer p; p_offset := 0; p_len := l |}
        full) as (p' & f' & r' & E1 & E2 & E3 & E4).
    + assumption.
    + destruct HI. constructor; cbn [p_state p_buffer p_offset length]; auto.
    + exists p', f', r'. auto.
Qed.

(** ** Padding *)
Definition pad_tail (rest : list Z) (bits : Z) : list Z :=
  rest ++ [0x80] ++ repeat 0 (zeros_needed V (length rest)) ++ be_encode (2 * wbytes V) bits.

Lemma zeros_needed_mod (full rest : list Z) k : length full = (k * bb)%nat ->
  zeros_needed V (length (full ++ rest)) = zeros_needed V (length rest).
Proof.
  intros Hk. pose proof bb_pos. unfold zeros_needed. fold bb. f_equal. f_equal.
  rewrite app_length, Hk.
  replace (k * bb + length rest + 1 + 2 * wbytes V)%nat with ((length rest + 1 + 2 * wbytes V) + k * bb)%nat by lia.
  rewrite Nat.mod_add by lia. reflexivity.
Qed.

Lemma pad_with_split full rest k bits : length full = (k * bb)%nat ->
  pad_with V bits (full ++ rest) = full ++ pad_tail rest bits.
Proof.
  intros Hk. unfold pad_with, pad_tail. rewrite (zeros_needed_mod _ _ k) by assumption.
  now rewrite <- app_assoc.
Qed.

Lemma zeros_small r : (r + 1 + 2 * wbytes V <= bb)%nat -> zeros_needed V r = (bb - (r + 1 + 2 * wbytes V))%nat.
Proof.
  intros H. pose proof bb_pos. unfold zeros_needed. fold bb.
  destruct (Nat.eq_dec (r + 1 + 2 * wbytes V) bb) as [->|Hn].
  - rewrite Nat.mod_same, Nat.sub_0_r, Nat.mod_same by lia. lia.
  - rewrite (Nat.mod_small (r + 1 + 2 * wbytes V)) by lia. apply Nat.mod_small. lia.
Qed.
Lemma zeros_large r : (r < bb)%nat -> (bb < r + 1 + 2 * wbytes V)%nat ->
  zeros_needed V r = (2 * bb - (r + 1 + 2 * wbytes V))%nat.
Proof.
  intros Hr H. pose proof bb_pos. pose proof (m_wpos _ _ _ M).
  assert (Hw : (2 * wbytes V < bb)%nat) by (unfold bb, block_bytes; lia).
  unfold zeros_needed. fold bb.
  replace (r + 1 + 2 * wbytes V)%nat with ((r + 1 + 2 * wbytes V - bb) + 1 * bb)%nat at 1 by lia.
  rewrite Nat.mod_add by lia.
  rewrite (Nat.mod_small (r + 1 + 2 * wbytes V - bb)) by lia.
  rewrite Nat.mod_small by lia. lia.
Qed.

Lemma zero_range_eq i j buf : (i <= j)%nat -> (j <= length buf)%nat ->
  zero_range i j buf = firstn i buf ++ repeat 0 (j - i) ++ skipn j buf.
Proof. intros H1 H2. unfold zero_range. rewrite Nat.min_l, Nat.max_r by lia. reflexivity. Qed.

Lemma final_state b p full rest bits : Inv p full rest ->
  uchk b 64 (8 * p_len p) = Ok bits ->
  exists p1, pad P b p = Ok p1 /\
    process P (p_state p1) (p_buffer p1) = fold_left (compress V) (chunks bb (pad_with V bits (full ++ rest))) (IV V)
    /\ good (process P (p_state p1) (p_buffer p1)).
Proof.
  intros HI Hbits. pose proof bb_pos as Hbb. pose proof (m_wpos _ _ _ M) as Hwp.
  assert (Hw : bb = (16 * wbytes V)%nat) by reflexivity.
  destruct (i_full _ _ _ HI) as [k Hk].
  pose proof (i_rest _ _ _ HI) as Hr. pose proof (i_off _ _ _ HI) as Ho. pose proof (i_buflen _ _ _ HI) as Hbl.
  assert (Hb64 : 0 <= bits < 2 ^ 64).
  { unfold uchk in Hbits. destruct (Z.leb_spec 0 (8 * p_len p)), (Z.ltb_spec (8 * p_len p) (2 ^ 64)); cbn [andb] in Hbits;
      destruct b; inversion Hbits; subst; try (split; assumption); try (apply Z.mod_pos_bound; lia). }
  rewrite (pad_with_split _ _ k) by assumption.
  rewrite (chunks_app_full bb k) by (auto; lia). rewrite fold_left_app. fold (fold_full full).
  assert (Hgf : good (fold_full full)) by (apply fold_full_good with k; [apply (i_bfull _ _ _ HI)|assumption]).
  rewrite <- (i_state _ _ _ HI) in *.
  unfold pad. rewrite (m_block _ _ _ M), (m_wb _ _ _ M). fold bb.
  rewrite write_slice_ok by (rewrite Hbl, Ho; cbn [length]; lia). cbn [bind length].
  rewrite Ho, (i_buf _ _ _ HI).
  set (buf1 := rest ++ [128] ++ skipn (length rest + 1) (p_buffer p)).
  assert (Hb1 : length buf1 = bb).
  { unfold buf1. rewrite !app_length, skipn_length. cbn [length]. lia. }
  assert (Hby : bytes buf1).
  { unfold buf1. rewrite !bytes_app. repeat split.
    - apply (i_brest _ _ _ HI).
    - repeat constructor; unfold byte_ok; lia.
    - apply bytes_skipn, (i_bufbytes _ _ _ HI). }
  assert (Hf1 : firstn (S (length rest)) buf1 = rest ++ [128]).
  { unfold buf1. rewrite app_assoc, firstn_app.
    rewrite firstn_all2 by (rewrite app_length; cbn [length]; lia).
    rewrite app_length. cbn [length].
    replace (S (length rest) - (length rest + 1))%nat with O by lia. cbn [firstn]. apply app_nil_r. }
  assert (Hbe : be_encode (2 * wbytes V) bits = repeat 0 (2 * wbytes V - 8) ++ be_encode 8 bits).
  { rewrite <- be_encode_zeros by (change (256 ^ Z.of_nat 8) with (2 ^ 64); lia). f_equal. lia. }
  unfold pad_tail. rewrite Hbe.
  destruct (Nat.ltb_spec (bb - 2 * wbytes V) (S (length rest))) as [Hlt|Hge].
  - rewrite (zeros_large (length rest)) by lia.
    rewrite (zero_range_eq (S (length rest)) (length buf1) buf1) by lia. rewrite Hf1, Hb1, (skipn_all2 buf1), app_nil_r by lia.
    set (blk1 := (rest ++ [128]) ++ repeat 0 (bb - S (length rest))).
    assert (Hl1 : length blk1 = bb).
    { unfold blk1. rewrite !app_length, repeat_length. cbn [length]. lia. }
    assert (Hby1 : bytes blk1).
    { unfold blk1. rewrite !bytes_app. repeat split.
      - apply (i_brest _ _ _ HI).
      - repeat constructor; unfold byte_ok; lia.
      - apply bytes_repeat; unfold byte_ok; lia. }
    rewrite zero_range_eq by lia. cbn [firstn app].
    rewrite Hbits. cbn [bind].
    rewrite write_slice_ok.
    2:{ rewrite app_length, repeat_length, skipn_length, be_encode_length. lia. }
    cbn [bind]. eexists; split; [reflexivity|]. cbn [p_state p_buffer].
    rewrite be_encode_length.
    rewrite firstn_app, repeat_length.
    replace (bb - 8 - (bb - 8 - 0))%nat with O by lia. cbn [firstn].
    rewrite app_nil_r, firstn_all2 by (rewrite repeat_length; lia).
    rewrite skipn_all2 by (rewrite app_length, repeat_length, skipn_length; lia).
    rewrite app_nil_r, Nat.sub_0_r.
    set (blk2 := repeat 0 (bb - 8) ++ be_encode 8 bits).
    assert (Hl2 : length blk2 = bb).
    { unfold blk2. rewrite app_length, repeat_length, be_encode_length. lia. }
    assert (Hby2 : bytes blk2).
    { unfold blk2. rewrite bytes_app. split; [apply bytes_repeat; unfold byte_ok; lia | apply be_encode_bytes]. }
    destruct (process_eq P A V M _ blk1 Hgf Hby1 Hl1) as [E1 G1]. rewrite E1.
    destruct (process_eq P A V M _ blk2 G1 Hby2 Hl2) as [E2 G2]. rewrite E2.
    split; [|assumption].
    match goal with |- _ = fold_left _ (chunks bb ?x) _ => replace x with (blk1 ++ blk2) end.
    2:{ cbn [app]. unfold blk1, blk2. rewrite <- !app_assoc. cbn [app]. do 2 f_equal. rewrite !app_assoc, <- !repeat_app.
        f_equal. f_equal. lia. }
    rewrite (chunks_app bb blk1) by (auto; lia).
    rewrite (chunks_short bb blk2) by (try (apply ne_of_bb; assumption); lia).
    reflexivity.
  - rewrite (zeros_small (length rest)) by lia.
    rewrite zero_range_eq by lia. rewrite Hf1.
    rewrite Hbits. cbn [bind].
    set (z := (bb - 8 - S (length rest))%nat).
    assert (Hsk : length (skipn (bb - 8) buf1) = 8%nat) by (rewrite skipn_length; lia).
    assert (Hpre : length ((rest ++ [128]) ++ repeat 0 z) = (bb - 8)%nat).
    { rewrite !app_length, repeat_length. cbn [length]. unfold z. lia. }
    rewrite app_assoc.
    rewrite write_slice_ok.
    2:{ rewrite app_length, Hpre, Hsk, be_encode_length. lia. }
    cbn [bind]. eexists; split; [reflexivity|]. cbn [p_state p_buffer].
    rewrite be_encode_length.
    assert (HX : firstn (bb - 8) (((rest ++ [128]) ++ repeat 0 z) ++ skipn (bb - 8) buf1) = (rest ++ [128]) ++ repeat 0 z).
    { rewrite <- Hpre at 1. rewrite firstn_app, firstn_all, Nat.sub_diag. cbn [firstn]. apply app_nil_r. }
    rewrite HX. clear HX.
    rewrite (skipn_all2 (((rest ++ [128]) ++ repeat 0 z) ++ _)) by (rewrite app_length, Hpre, Hsk; lia). rewrite app_nil_r.
    set (blk := ((rest ++ [128]) ++ repeat 0 z) ++ be_encode 8 bits).
    assert (Hl1 : length blk = bb).
    { unfold blk. rewrite app_length, Hpre, be_encode_length. lia. }
    assert (Hby1 : bytes blk).
    { unfold blk. rewrite !bytes_app. repeat split.
      - apply (i_brest _ _ _ HI).
      - repeat constructor; unfold byte_ok; lia.
      - apply bytes_repeat; unfold byte_ok; lia.
      - apply be_encode_bytes. }
    destruct (process_eq P A V M _ blk Hgf Hby1 Hl1) as [E1 G1]. rewrite E1.
    split; [|assumption].
    match goal with |- _ = fold_left _ (chunks bb ?x) _ => replace x with blk end.
    2:{ cbn [app]. unfold blk, z. rewrite <- !app_assoc. cbn [app]. do 2 f_equal. rewrite !app_assoc, <- !repeat_app.
        f_equal. f_equal. lia. }
    rewrite (chunks_short bb blk) by (try (apply ne_of_bb; assumption); lia).
    reflexivity.
Qed.

Lemma firstn_flat_map {B} (f : B -> list Z) n m l : (forall x, length (f x) = n) ->
  flat_map f (firstn m l) = firstn (m * n) (flat_map f l).
Proof.
  intros Hf. revert m; induction l as [|x l IH]; intros [|m]; cbn [flat_map firstn Nat.mul]; auto.
  - now rewrite firstn_nil.
  - rewrite IH. rewrite firstn_app, Hf. rewrite (firstn_all2 (f x)) by (rewrite Hf; lia).
    f_equal. f_equal. lia.
Qed.

Lemma write_digest_eq b p full rest bits out : Inv p full rest ->
  uchk b 64 (8 * p_len p) = Ok bits -> length out = digest_bytes V ->
  proc_write_digest P b p out = Ok (hash_with V bits (full ++ rest)).
Proof.
  intros HI Hbits Hout. unfold proc_write_digest.
  destruct (final_state b p full rest bits HI Hbits) as (p1 & E1 & E2 & [G1 G2]).
  rewrite E1. cbn [bind]. rewrite G1, (m_wb _ _ _ M), Hout.
  pose proof (m_wpos _ _ _ M). pose proof (m_dsn _ _ _ M) as Hds. pose proof (m_ds8 _ _ _ M) as Hd8.
  rewrite assertb_true. 2:{ apply Nat.leb_le. apply Nat.div_le_upper_bound; lia. }
  rewrite assertb_true by (apply Nat.eqb_eq; lia). cbn [bind].
  f_equal. unfold hash_with. rewrite E2.
  rewrite (firstn_flat_map _ (wbytes V)) by (intros; apply be_encode_length).
  rewrite <- Hds. reflexivity.
Qed.

Lemma write_digest_panic p out full rest : Inv p full rest ->
  uchk Checked 64 (8 * p_len p) = Panic -> proc_write_digest P Checked p out = Panic.
Proof.
  intros HI HP. unfold proc_write_digest, pad. rewrite (m_block _ _ _ M), (m_wb _ _ _ M). fold bb.
  pose proof (i_rest _ _ _ HI) as Hr. pose proof (i_off _ _ _ HI) as Ho. pose proof (i_buflen _ _ _ HI) as Hbl.
  rewrite write_slice_ok by (rewrite Hbl, Ho; cbn [length]; lia). cbn [bind].
  destruct (_ <? S (p_offset p))%nat; rewrite HP; reflexivity.
Qed.

(** ** The hash function built by [impl_function!] *)
Let H := impl_function P A.

Definition repr (s : processor) (msg : list Z) : Prop :=
  exists full rest, msg = full ++ rest /\ Inv s full rest /\ p_len s = len msg mod 2 ^ 64.

Lemma repr_default : repr (hdefault H) [].
Proof. exists [], []. split; [reflexivity|]. split; [apply Inv_new|reflexivity]. Qed.

Lemma repr_update b s msg input : repr s msg -> bytes input ->
  b = Unchecked \/ len msg + len input < 2 ^ 64 ->
  exists s', hupdate H b s input = Ok s' /\ repr s' (msg ++ input).
Proof.
  intros (full & rest & -> & HI & Hl) Hb Hlen.
  assert (Hu : uchk b 64 (p_len s + len input) = Ok (len ((full ++ rest) ++ input) mod 2 ^ 64)).
  { rewrite Hl. rewrite (len_app (full ++ rest) input).
    pose proof (len_nonneg input). pose proof (len_nonneg (full ++ rest)).
    destruct Hlen as [->|Hlen].
    - rewrite uchk_unchecked. now rewrite Zplus_mod_idemp_l.
    - rewrite !Z.mod_small by lia. apply uchk_ok. lia. }
  destruct (proc_update_inv b s full rest input _ Hb HI Hu) as (p' & f' & r' & E1 & E2 & E3 & E4).
  exists p'. split; [exact E1|]. exists f', r'. auto.
Qed.

Lemma repr_update_panic s msg input : repr s msg -> len msg < 2 ^ 64 -> 2 ^ 64 <= len msg + len input ->
  hupdate H Checked s input = Panic.
Proof.
  intros (full & rest & -> & HI & Hl) Hm Hlen. cbn [H impl_function hupdate]. unfold proc_update.
  rewrite uchk_checked_panic; [reflexivity|]. rewrite Hl, Z.mod_small; [lia|].
  pose proof (len_nonneg (full ++ rest)). lia.
Qed.

Lemma repr_write b s msg out : repr s msg -> b = Unchecked \/ len msg < 2 ^ 61 ->
  hwrite_digest H b s out =
    if (length out =? digest_bytes V)%nat then Ok (hash_with V ((8 * len msg) mod 2 ^ 64) msg) else Panic.
Proof.
  intros (full & rest & -> & HI & Hl) Hlen. cbn [H impl_function hwrite_digest].
  rewrite (m_ds _ _ _ M), Nat.eqb_sym.
  destruct (Nat.eqb_spec (length out) (digest_bytes V)) as [He|He]; cbn [assertb bind]; [|reflexivity].
  apply write_digest_eq; auto. rewrite Hl. pose proof (len_nonneg (full ++ rest)). destruct Hlen as [->|Hlen].
  - rewrite uchk_unchecked. now rewrite Zmult_mod_idemp_r.
  - rewrite !Z.mod_small by lia. apply uchk_ok. lia.
Qed.

Lemma repr_write_panic s msg out : repr s msg -> 2 ^ 61 <= len msg < 2 ^ 64 ->
  hwrite_digest H Checked s out = Panic.
Proof.
  intros (full & rest & -> & HI & Hl) Hbig. cbn [H impl_function hwrite_digest].
  destruct (assertb _); cbn [bind]; [|reflexivity].
  eapply write_digest_panic; [exact HI|]. rewrite Hl, Z.mod_small by lia. apply uchk_checked_panic. lia.
Qed.

Lemma repr_updates b inputs : forall s msg, repr s msg -> Forall bytes inputs ->
  b = Unchecked \/ len msg + len (concat inputs) < 2 ^ 64 ->
  exists s', hash_updates H b s inputs = Ok s' /\ repr s' (msg ++ concat inputs).
Proof.
  induction inputs as [|i inputs IH]; intros s msg Hs Hb Hl; cbn [hash_updates concat] in *.
  - exists s. rewrite app_nil_r. auto.
  - inversion_clear Hb. rewrite len_app in Hl. pose proof (len_nonneg (concat inputs)).
    destruct (repr_update b s msg i Hs) as (s1 & E1 & R1); auto.
    { destruct Hl; [auto|right; lia]. }
    rewrite E1. cbn [bind].
    destruct (IH s1 (msg ++ i) R1) as (s2 & E2 & R2); auto.
    { destruct Hl; [auto|right; rewrite len_app; lia]. }
    exists s2. rewrite app_assoc. auto.
Qed.

Lemma SHA_eq msg : len msg < 2 ^ 61 -> hash_with V ((8 * len msg) mod 2 ^ 64) msg = SHA V msg.
Proof. intros Hl. unfold SHA. rewrite Z.mod_small; [reflexivity|]. pose proof (len_nonneg msg). lia. Qed.

Lemma SHA_length bits msg : bytes msg -> length (hash_with V bits msg) = digest_bytes V.
Proof.
  intros Hb. pose proof bb_pos as Hbb. unfold hash_with. rewrite firstn_length.
  assert (HG : good (fold_left (compress V) (chunks (block_bytes V) (pad_with V bits msg)) (IV V))).
  { pose proof (m_wpos _ _ _ M) as Hwp.
    assert (exists k, length (pad_with V bits msg) = (k * bb)%nat) as [k Hk].
    { unfold pad_with. rewrite !app_length, repeat_length, be_encode_length. cbn [length].
      unfold zeros_needed. fold bb.
      set (n := (length msg + 1 + 2 * wbytes V)%nat).
      assert (Hn : (n = bb * (n / bb) + n mod bb)%nat) by (apply Nat.div_mod; lia).
      assert (Hm : (n mod bb < bb)%nat) by (apply Nat.mod_upper_bound; lia).
      destruct (Nat.eq_dec (n mod bb) 0) as [E|E].
      - rewrite E, Nat.sub_0_r, Nat.mod_same by lia. exists (n / bb)%nat. nia.
      - rewrite (Nat.mod_small (bb - n mod bb)) by lia. exists (S (n / bb)). nia. }
    assert (Hpb : bytes (pad_with V bits msg)).
    { unfold pad_with. rewrite !bytes_app. repeat split; auto.
      - repeat constructor; unfold byte_ok; lia.
      - apply bytes_repeat; unfold byte_ok; lia.
      - apply be_encode_bytes. }
    apply fold_compress_good; [apply good_IV| |].
    - apply chunks_bytes; [fold bb; lia|assumption].
    - apply (chunks_full bb k); [lia|assumption]. }
  destruct HG as [HG _].
  assert (HF : forall l, length (flat_map (be_encode (wbytes V)) l) = (length l * wbytes V)%nat).
  { induction l as [|x l IH]; cbn [flat_map length]; [reflexivity|].
    rewrite app_length, be_encode_length, IH. lia. }
  rewrite HF, HG. pose proof (m_ds8 _ _ _ M). lia.
Qed.

End Stream.

Lemma SHA_bytes V bits msg : bytes (hash_with V bits msg).
Proof. unfold hash_with. apply bytes_firstn. apply bytes_flat_map. intros. apply be_encode_bytes. Qed.

Lemma sha2_matches H V : sha2 H V -> exists P A, H = impl_function P A /\ matches P A V.
Proof.
  intros []; do 2 eexists; (split; [reflexivity|]).
  - apply matches_sha512.
  - apply matches_sha384.
  - apply matches_sha256.
  - apply matches_sha224.
Qed.

(** ** What a client of a SHA-2 [HashFunction] can rely on *)
Record hash_contract (H : HashFunction) (V : variant) (R : hstate H -> list Z -> Prop) : Prop := {
  hc_ds : DIGEST_SIZE H = digest_bytes V;
  hc_bs : BLOCK_SIZE H = block_bytes V;
  hc_ds_range : (0 < digest_bytes V <= 64)%nat;
  hc_ds_block : (digest_bytes V <= block_bytes V)%nat;
  hc_block : (64 <= block_bytes V <= 128)%nat;
  hc_default : R (hdefault H) [];
  hc_update : forall b s msg input, R s msg -> bytes input -> b = Unchecked \/ len msg + len input < 2 ^ 64 ->
    exists s', hupdate H b s input = Ok s' /\ R s' (msg ++ input);
  hc_update_panic : forall s msg input, R s msg -> len msg < 2 ^ 64 -> 2 ^ 64 <= len msg + len input ->
    hupdate H Checked s input = Panic;
  hc_write : forall b s msg out, R s msg -> b = Unchecked \/ len msg < 2 ^ 61 ->
    hwrite_digest H b s out =
    if (length out =? digest_bytes V)%nat then Ok (hash_with V ((8 * len msg) mod 2 ^ 64) msg) else Panic;
  hc_write_panic : forall s msg out, R s msg -> 2 ^ 61 <= len msg < 2 ^ 64 -> hwrite_digest H Checked s out = Panic;
  hc_updates : forall b inputs s msg, R s msg -> Forall bytes inputs ->
    b = Unchecked \/ len msg + len (concat inputs) < 2 ^ 64 ->
    exists s', hash_updates H b s inputs = Ok s' /\ R s' (msg ++ concat inputs);
  hc_length : forall bits msg, bytes msg -> length (hash_with V bits msg) = digest_bytes V }.

Lemma sha2_contract H V : sha2 H V -> exists R, hash_contract H V R.
Proof.
  intros HV. destruct (sha2_matches H V HV) as (P & A & -> & M).
  exists (repr V). constructor.
  - apply (m_ds _ _ _ M).
  - apply (m_bs _ _ _ M).
  - pose proof (m_ds8 _ _ _ M). pose proof (m_dsle _ _ _ M). lia.
  - pose proof (m_ds8 _ _ _ M). unfold block_bytes. lia.
  - apply (bb_pos P A V M).
  - apply repr_default; assumption.
  - intros. apply repr_update with (A := A); assumption.
  - intros. eapply repr_update_panic; eassumption.
  - intros. apply repr_write; assumption.
  - intros. eapply repr_write_panic; eassumption.
  - intros. apply repr_updates with (A := A); assumption.
  - intros. apply (SHA_length P A); assumption.
Qed.

(** ** The properties *)
Lemma sha2_oneshot H V : sha2 H V -> forall b msg, bytes msg -> len msg < 2 ^ 61 ->
  hash_wrapper H b msg = Ok (SHA V msg).
Proof.
  intros HV b msg Hb Hl. destruct (sha2_contract H V HV) as [R C]. pose proof (len_nonneg msg). unfold hash_wrapper.
  destruct (hc_update _ _ _ C b (hdefault H) [] msg (hc_default _ _ _ C) Hb) as (s & E & Hs).
  { right. rewrite len_nil. lia. }
  rewrite E. cbn [bind]. rewrite (hc_write _ _ _ C _ _ _ _ Hs) by (right; assumption).
  rewrite repeat_length, (hc_ds _ _ _ C), Nat.eqb_refl. cbn [app]. now rewrite SHA_eq.
Qed.

Lemma sha2_stream H V : sha2 H V -> forall b inputs, Forall bytes inputs -> len (concat inputs) < 2 ^ 61 ->
  exists s, hash_updates H b (hdefault H) inputs = Ok s /\
    forall out, length out = DIGEST_SIZE H -> hwrite_digest H b s out = Ok (SHA V (concat inputs)).
Proof.
  intros HV b inputs Hb Hl. destruct (sha2_contract H V HV) as [R C].
  destruct (hc_updates _ _ _ C b inputs (hdefault H) [] (hc_default _ _ _ C) Hb) as (s & E & Hs).
  { right. rewrite len_nil. lia. }
  exists s. split; [exact E|]. intros out Ho. rewrite (hc_write _ _ _ C _ _ _ _ Hs) by (right; assumption).
  rewrite Ho, (hc_ds _ _ _ C), Nat.eqb_refl. cbn [app]. now rewrite SHA_eq.
Qed.

Lemma sha2_write_digest H V : sha2 H V -> forall b inputs s, Forall bytes inputs -> len (concat inputs) < 2 ^ 61 ->
  hash_updates H b (hdefault H) inputs = Ok s ->
  (forall out, hwrite_digest H b s out = Panic <-> length out <> DIGEST_SIZE H) /\
  (forall out out', length out = DIGEST_SIZE H -> length out' = DIGEST_SIZE H ->
     hwrite_digest H b s out = hwrite_digest H b s out') /\
  (forall out d, hwrite_digest H b s out = Ok d -> length d = DIGEST_SIZE H /\ bytes d).
Proof.
  intros HV b inputs s Hb Hl Hs. destruct (sha2_contract H V HV) as [R C].
  destruct (hc_updates _ _ _ C b inputs (hdefault H) [] (hc_default _ _ _ C) Hb) as (s' & E & Hs').
  { right. rewrite len_nil. lia. }
  rewrite E in Hs. injection Hs as ->. cbn [app] in Hs'.
  assert (HW : forall out, hwrite_digest H b s out =
    if (length out =? digest_bytes V)%nat then Ok (SHA V (concat inputs)) else Panic).
  { intros out. rewrite (hc_write _ _ _ C _ _ _ _ Hs') by (right; assumption). now rewrite SHA_eq. }
  rewrite (hc_ds _ _ _ C). split; [|split].
  - intros out. rewrite HW. destruct (Nat.eqb_spec (length out) (digest_bytes V)); split; intros; congruence.
  - intros out out' -> % Nat.eqb_eq -> % Nat.eqb_eq || intros out out' H1 H2.
    rewrite !HW, H1, H2. reflexivity.
  - intros out d. rewrite HW. destruct (Nat.eqb _ _); intros Hd; [|discriminate]. injection Hd as <-.
    split; [apply (hc_length _ _ _ C); apply bytes_concat; assumption | apply SHA_bytes].
Qed.

Lemma sha2_long H V : sha2 H V -> forall inputs out, Forall bytes inputs -> length out = DIGEST_SIZE H ->
  (2 ^ 61 <= len (concat inputs) < 2 ^ 64 ->
     exists s, hash_updates H Checked (hdefault H) inputs = Ok s /\ hwrite_digest H Checked s out = Panic) /\
  (2 ^ 64 <= len (concat inputs) -> hash_updates H Checked (hdefault H) inputs = Panic) /\
  (exists s, hash_updates H Unchecked (hdefault H) inputs = Ok s /\
     hwrite_digest H Unchecked s out =
       Ok (hash_with V ((8 * len (concat inputs)) mod 2 ^ 64) (concat inputs))).
Proof.
  intros HV inputs out Hb Ho. destruct (sha2_contract H V HV) as [R C]. split; [|split].
  - intros Hl. destruct (hc_updates _ _ _ C Checked inputs (hdefault H) [] (hc_default _ _ _ C) Hb) as (s & E & Hs).
    { right. rewrite len_nil. lia. }
    exists s. split; [exact E|]. eapply (hc_write_panic _ _ _ C); [exact Hs|exact Hl].
  - intros Hl.
    assert (Hgen : forall inputs s msg, R s msg -> Forall bytes inputs -> len msg < 2 ^ 64 ->
      2 ^ 64 <= len msg + len (concat inputs) -> hash_updates H Checked s inputs = Panic).
    { clear - C. induction inputs as [|i inputs IH]; intros s msg Hs Hb Hm Hl; cbn [concat hash_updates] in *.
      - rewrite len_nil in Hl. lia.
      - inversion_clear Hb. rewrite len_app in Hl.
        destruct (Z.lt_ge_cases (len msg + len i) (2 ^ 64)) as [Hlt|Hge].
        + destruct (hc_update _ _ _ C Checked s msg i Hs) as (s1 & E1 & R1); auto.
          rewrite E1. cbn [bind]. eapply IH; [exact R1|assumption| |]; rewrite len_app; lia.
        + rewrite (hc_update_panic _ _ _ C s msg i) by assumption. reflexivity. }
    eapply Hgen; [apply (hc_default _ _ _ C)|assumption| |]; rewrite len_nil; lia.
  - destruct (hc_updates _ _ _ C Unchecked inputs (hdefault H) [] (hc_default _ _ _ C) Hb) as (s & E & Hs); [auto|].
    exists s. split; [exact E|]. rewrite (hc_write _ _ _ C _ _ _ _ Hs) by auto.
    rewrite Ho, (hc_ds _ _ _ C), Nat.eqb_refl. reflexivity.
Qed.
