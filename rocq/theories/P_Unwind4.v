(** Panics that are caught and calls stopped half way: SHA-2, HMAC, HKDF. *)
From Verif Require Import BaseFacts M_Util M_Sha2 M_Hmac M_Hkdf M_Unwind HistUnwind S_Sha2 S_Hmac Hist.
From Verif Require Import P_Util P_Sha2 P_Sha2Stream P_Hmac P_Unwind P_Unwind2 P_Unwind3.
From Coq Require Import ZifyBool ZifyNat.

Lemma put_all_0 d (out : list Z) : length d = length out -> put_all 0 d tt out = mkRun (wr 0 d) tt d (Ok tt).
Proof. intros H. rewrite put_all_run by lia. now rewrite store_all by assumption. Qed.
Lemma flat_be_length n (l : list Z) : length (flat_map (be_encode n) l) = (length l * n)%nat.
Proof. induction l as [|x l IH]; [reflexivity|]. cbn [flat_map length Nat.mul]. rewrite app_length, be_encode_length, IH. reflexivity. Qed.

(** All the checks of write_digest come before the first store. *)
Lemma write_digest_run P alg b p out :
  u_write_digest P alg b p tt out =
    match hwrite_digest (impl_function P alg) b p out with
    | Ok d => mkRun (wr 0 d) tt d (Ok tt)
    | Panic => mkRun [] tt out Panic end.
Proof.
  unfold u_write_digest, impl_function, hwrite_digest, proc_write_digest. rewrite bindU_get_out, bindU_lift.
  destruct (assertb (digest_size alg =? length out)%nat) as [[]|]; [|reflexivity]. cbn [bind]. rewrite bindU_lift.
  destruct (pad P b p) as [p'|]; [|reflexivity]. cbn [bind]. cbv zeta. rewrite bindU_lift.
  set (st := process P (p_state p') (p_buffer p')). set (n := (length out / w_bytes P)%nat).
  destruct (Nat.leb_spec n (length st)) as [H1|H1]; cbn [assertb bind]; [|reflexivity]. rewrite bindU_lift.
  destruct (Nat.eqb_spec (n * w_bytes P) (length out)) as [H2|H2]; cbn [assertb bind]; [|reflexivity].
  apply put_all_0. rewrite flat_be_length, firstn_length. rewrite Nat.min_l by assumption. exact H2.
Qed.
Lemma write_digest_same P alg b p out d : hwrite_digest (impl_function P alg) b p out = Ok d -> length d = length out.
Proof.
  unfold impl_function, hwrite_digest, proc_write_digest.
  destruct (assertb (digest_size alg =? length out)%nat) as [[]|]; [|discriminate]. cbn [bind].
  destruct (pad P b p) as [p'|]; [|discriminate]. cbn [bind]. cbv zeta.
  set (st := process P (p_state p') (p_buffer p')). set (n := (length out / w_bytes P)%nat).
  destruct (Nat.leb_spec n (length st)) as [H1|H1]; cbn [assertb bind]; [|discriminate].
  destruct (Nat.eqb_spec (n * w_bytes P) (length out)) as [H2|H2]; cbn [assertb bind]; [|discriminate].
  intros H. apply ok_inj in H. subst d. rewrite flat_be_length, firstn_length. rewrite Nat.min_l by assumption. exact H2.
Qed.
Lemma write_tag_run P alg b h out : let H := impl_function P alg in
  u_write_tag P alg b h tt out =
    match (let! _ := assertb (digest_size alg =? length out)%nat in hwrite_digest H b (inner h) out) with
    | Panic => mkRun [] tt out Panic
    | Ok d =>
      match (let! o := hupdate H b (outer h) d in hwrite_digest H b o d) with
      | Panic => mkRun (wr 0 d) tt d Panic
      | Ok t => mkRun (wr 0 d ++ wr 0 t) tt t (Ok tt) end end.
Proof.
  cbv zeta. unfold u_write_tag. rewrite bindU_get_out, bindU_lift.
  destruct (assertb (digest_size alg =? length out)%nat) as [[]|]; [|reflexivity]. cbn [bind].
  pose proof (write_digest_run P alg b (inner h) out) as R1.
  destruct (hwrite_digest (impl_function P alg) b (inner h) out) as [d|].
  2:{ rewrite (bindU_panic _ _ _ _ _ _ _ R1). reflexivity. }
  rewrite (bindU_run _ _ _ _ _ _ _ _ R1). rewrite bindU_get_out, bindU_lift.
  destruct (hupdate (impl_function P alg) b (outer h) d) as [o|]; cbn [bind writes self_after out_after outcome].
  2:{ rewrite app_nil_r. reflexivity. }
  rewrite write_digest_run. destruct (hwrite_digest (impl_function P alg) b o d) as [t|]; cbn [writes self_after out_after outcome].
  - reflexivity.
  - rewrite app_nil_r. reflexivity.
Qed.

Lemma moment_two {A} (r : run unit A) out d t : writes r = wr 0 d ++ wr 0 t -> length d = length out -> length t = length out ->
  forall buf, moment r out buf <-> (exists k, buf = firstn k d ++ skipn k out) \/ (exists k, buf = firstn k t ++ skipn k d).
Proof.
  intros W Ld Lt buf. unfold moment. rewrite W.
  assert (Lw : length (wr 0 d) = length d) by (unfold wr; rewrite combine_length, seq_length; lia).
  split.
  - intros [k ->]. rewrite firstn_app, Lw. destruct (Nat.le_gt_cases k (length d)) as [Hk|Hk].
    + left. exists k. replace (k - length d)%nat with 0%nat by lia. cbn [firstn]. rewrite app_nil_r, wr_firstn.
      now apply store_prefix.
    + right. exists (k - length d)%nat. rewrite (firstn_all2 (wr 0 d)) by lia. rewrite store_app, store_all, wr_firstn by congruence.
      apply store_prefix. congruence.
  - intros [[k ->]|[k ->]].
    + exists (Nat.min k (length d)). rewrite firstn_app, Lw. replace (Nat.min k (length d) - length d)%nat with 0%nat by lia.
      cbn [firstn]. rewrite app_nil_r, wr_firstn, store_prefix by assumption.
      destruct (Nat.le_gt_cases k (length d)); [now rewrite Nat.min_l by assumption|].
      rewrite Nat.min_r by lia. rewrite !(firstn_all2 d), !skipn_all2 by lia. reflexivity.
    + exists (length d + k)%nat. rewrite firstn_app, Lw, (firstn_all2 (wr 0 d)) by lia.
      replace (length d + k - length d)%nat with k by lia.
      rewrite store_app, store_all, wr_firstn, store_prefix by congruence. reflexivity.
Qed.

Section Hmac.
Variables (H : HashFunction) (V : variant) (R : hstate H -> list Z -> Prop).
Hypothesis C : hash_contract H V R.
Let B := block_bytes V.
Let ds := digest_bytes V.

Lemma extract_run b salt ikm prk : bytes salt -> len salt < 2 ^ 61 -> bytes ikm -> Z.of_nat B + len ikm < 2 ^ 61 ->
  u_extract H b salt ikm tt prk =
    if (length prk =? ds)%nat
    then let t := HMAC (SHA V) B salt ikm in mkRun (wr 0 t) tt t (Ok tt)
    else mkRun [] tt prk Panic.
Proof.
  intros Hk Hkl Hm Hl. unfold u_extract. rewrite bindU_get_out, bindU_lift, (hc_ds _ _ _ C). fold ds. rewrite Nat.eqb_sym.
  destruct (Nat.eqb_spec (length prk) ds) as [He|He]; cbn [assertb bind]; [|reflexivity].
  destruct (new_update1 H V R C b salt ikm Hk Hkl Hm Hl) as (h0 & h1 & E0 & E1 & R1).
  rewrite bindU_lift, E0, bindU_lift, E1, bindU_lift.
  destruct (hmac_tag_eq H V R C b h1 salt ikm Hk Hkl Hm R1 Hl) as (t & Et & Ed). rewrite Et, bindU_lift, Ed, bindU_lift.
  pose proof (HMAC_length H V R C salt ikm Hk Hkl Hm) as HL. fold B ds in HL.
  rewrite assertb_true by (apply Nat.eqb_eq; exact (eq_trans He (eq_sym HL))). cbv zeta. apply put_all_0. exact (eq_trans HL (eq_sym He)).
Qed.

Section Expand.
Variables (prk info : list Z).
Hypothesis Hp : bytes prk.
Hypothesis Hpl : len prk < 2 ^ 61.
Hypothesis Hinfo : bytes info.
Hypothesis Hil : Z.of_nat B + Z.of_nat ds + len info + 1 < 2 ^ 61.
Let T := HKDF_T (SHA V) B prk info.
Let step := expand_step H V R C prk info Hp Hpl Hinfo Hil.
Let rk := rekey H V R C prk info Hp Hpl Hil.
Let TL : forall i, (i < 255)%nat -> length (T (S i)) = ds := T_length H V R C prk info Hp Hpl Hinfo.

(** [cnt]: how many bytes are stored; the loop returns iff it stores all of them and can fetch the next counter. *)
Definition left (b : build) (i n : nat) : nat := match b with Checked => (254 * ds - i * ds)%nat | Unchecked => n end.
Definition okb (b : build) (i n : nat) : bool := match b with Checked => (i * ds + n <? 254 * ds)%nat | Unchecked => true end.

Lemma expand_loop_run b : forall (okm : list Z) i iz h off o,
  (okm = [] \/ iz = Z.of_nat (S i)) -> (b = Checked -> iz = Z.of_nat (S i) /\ (i < 255)%nat) ->
  (i * ds + length okm <= 255 * ds)%nat -> hmac_repr H V R h prk (T i) -> (off + length okm <= length o)%nat ->
  let w := wr off (firstn (Nat.min (length okm) (left b i (length okm)))
                     (concat (map T (seq (S i) (length (chunks ds okm)))))) in
  u_expand_loop H b prk info iz h off (map (@length Z) (chunks ds okm)) tt o =
    mkRun w tt (store o w) (if okb b i (length okm) then Ok tt else Panic).
Proof.
  assert (Hds : (0 < ds <= 64)%nat) by apply (hc_ds_range _ _ _ C).
  intros okm. induction okm as [|okm Hne IH] using (chunks_ind ds ltac:(lia)); intros i iz h off o Hiz Hc Hlen Hh Ho; cbv zeta.
  - rewrite chunks_nil. cbn [map u_expand_loop length Nat.min seq concat firstn]. rewrite bindU_lift.
    destruct b; cbn [okb].
    + destruct (Hc eq_refl) as [-> Hi]. destruct (Nat.ltb_spec (i * ds + 0) (254 * ds)) as [Hlt|Hge].
      * rewrite uchk_ok by nia. reflexivity.
      * assert (i = 254)%nat by nia. subst i. reflexivity.
    + rewrite uchk_unchecked. reflexivity.
  - destruct Hiz as [->|Hiz]; [congruence|].
    assert (Hol : (0 < length okm)%nat) by (destruct okm; [congruence|cbn; lia]).
    assert (Hi : (i < 255)%nat) by nia.
    rewrite chunks_cons by (auto; lia). cbn [map u_expand_loop]. rewrite bindU_lift.
    assert (CC : (b = Checked /\ i = 254%nat) \/
      exists v, uchk b 8 (iz + 1) = Ok v /\ ((i = 254)%nat \/ v = Z.of_nat (S (S i))) /\ (b = Checked -> (i < 254)%nat)).
    { destruct b.
      - destruct (Nat.eq_dec i 254); [auto|right]. exists (iz + 1). split; [apply uchk_ok; lia|]. lia.
      - right. rewrite uchk_unchecked. eexists; split; [reflexivity|]. split; [|discriminate].
        destruct (Nat.eq_dec i 254); [auto|right]. rewrite Z.mod_small; lia. }
    destruct CC as [[-> ->]|(v & Ev & Hv & Hvc)].
    { rewrite Hiz. rewrite uchk_checked_panic by lia. cbn [left okb]. rewrite Nat.sub_diag, Nat.min_0_r. cbn [firstn].
      destruct (Nat.ltb_spec (254 * ds + length okm) (254 * ds)); [lia|reflexivity]. }
    rewrite Ev.
    destruct (step b h i Hi Hh) as (t & Et & Ht). change (t = T (S i)) in Ht. subst t. rewrite <- Hiz in Et. rewrite bindU_lift.
    destruct (hmac_update H b h info) as [h1|]; [|discriminate]. cbn [bind] in *. rewrite bindU_lift.
    destruct (hmac_update H b h1 [iz]) as [h2|]; [|discriminate]. cbn [bind] in *. rewrite bindU_lift.
    destruct (hmac_tag H b h2) as [t|]; [|discriminate]. cbn [bind] in *. rewrite bindU_lift.
    rewrite Et. rewrite (hc_ds _ _ _ C). fold ds. fold T. rewrite firstn_length.
    cbn [length seq map concat].
    destruct (Nat.ltb_spec (Nat.min ds (length okm)) ds) as [Hlt|Hge].
    + rewrite bindU_lift, slice_0 by (rewrite TL; lia).
      rewrite put_all_run by (rewrite firstn_length; rewrite TL; lia).
      rewrite (skipn_all2 okm) by lia. rewrite chunks_nil. cbn [length seq map concat]. rewrite app_nil_r.
      assert (M : Nat.min (length okm) (left b i (length okm)) = length okm).
      { destruct b; cbn [left]; [|lia]. specialize (Hvc eq_refl). nia. }
      rewrite M. replace (Nat.min ds (length okm)) with (length okm) by lia.
      assert (K : okb b i (length okm) = true).
      { destruct b; cbn [okb]; [|reflexivity]. specialize (Hvc eq_refl). apply Nat.ltb_lt. nia. }
      rewrite K. reflexivity.
    + rewrite TL by assumption. rewrite bindU_lift, assertb_true by (apply Nat.eqb_eq; lia).
      rewrite (bindU_run _ _ _ _ _ _ _ _ (put_all_run (T (S i)) off tt o ltac:(rewrite TL by assumption; lia))).
      destruct (rk b (T (S i))) as (h3 & E3 & R3); [apply T_bytes|apply TL; assumption|].
      rewrite bindU_lift. destruct (hmac_new H b prk) as [h0|]; [|discriminate]. cbn [bind] in *.
      rewrite bindU_lift, E3.
      rewrite (IH (S i) v h3).
      * cbn [writes self_after out_after outcome]. rewrite skipn_length.
        assert (K : okb b (S i) (length okm - ds) = okb b i (length okm)).
        { destruct b; cbn [okb]; [|reflexivity]. f_equal. nia. }
        rewrite K.
        assert (M : Nat.min (length okm) (left b i (length okm)) =
                    (ds + Nat.min (length okm - ds) (left b (S i) (length okm - ds)))%nat).
        { destruct b; cbn [left]; [|lia]. specialize (Hvc eq_refl). nia. }
        rewrite M, firstn_app, TL by assumption. rewrite (firstn_all2 (T (S i))) by (rewrite TL; lia).
        replace (ds + Nat.min (length okm - ds) (left b (S i) (length okm - ds)) - ds)%nat
          with (Nat.min (length okm - ds) (left b (S i) (length okm - ds))) by lia.
        rewrite wr_app, TL by assumption. rewrite store_app.
        replace (Nat.min ds (length okm) + off)%nat with (off + ds)%nat by lia. reflexivity.
      * destruct Hv as [Hv|Hv]; [left|right; assumption]. apply skipn_all2. nia.
      * intros Hb. specialize (Hvc Hb). split; [|lia]. destruct Hv; [lia|assumption].
      * rewrite skipn_length. nia.
      * exact R3.
      * rewrite store_length, skipn_length. lia.
Qed.

Lemma expand_run b okm :
  let OKM := HKDF_Expand (SHA V) B ds prk info (length okm) in
  u_expand H b prk info tt okm =
    if (ds <=? length prk)%nat && (length okm <=? 255 * ds)%nat
    then let w := wr 0 (firstn (match b with Checked => 254 * ds | Unchecked => length okm end) OKM) in
         mkRun w tt (store okm w) (if match b with Checked => (length okm <? 254 * ds)%nat | Unchecked => true end then Ok tt else Panic)
    else mkRun [] tt okm Panic.
Proof.
  assert (Hds : (0 < ds <= 64)%nat) by apply (hc_ds_range _ _ _ C).
  cbv zeta. unfold u_expand. rewrite bindU_get_out. cbv zeta. rewrite (hc_ds _ _ _ C). fold ds. rewrite bindU_lift.
  destruct (Nat.leb_spec ds (length prk)); cbn [assertb andb]; [|reflexivity]. rewrite bindU_lift.
  destruct (Nat.leb_spec (length okm) (255 * ds)); cbn [assertb andb]; [|reflexivity].
  destruct (hmac_new_repr H V R C b prk Hp Hpl) as (h & E & Rh). rewrite bindU_lift, E, bindU_lift.
  rewrite assertb_true by (apply Nat.ltb_lt; lia).
  rewrite (expand_loop_run b okm 0 1 h 0 okm); [|auto| |lia|exact Rh|lia].
  2:{ intros _. split; [reflexivity|lia]. }
  cbn [Nat.mul Nat.add]. unfold okb, left, HKDF_Expand. rewrite Nat.sub_0_r. rewrite chunks_count by lia. fold T.
  rewrite firstn_firstn. rewrite (Nat.min_comm (length okm)). destruct b; reflexivity.
Qed.
End Expand.
End Hmac.

Lemma concat_const {A} n (f : A -> list Z) (l : list A) : (forall x, In x l -> length (f x) = n) -> length (concat (map f l)) = (length l * n)%nat.
Proof.
  induction l as [|x l IH]; intros H; [reflexivity|]. cbn [map concat length Nat.mul]. rewrite app_length, IH, (H x).
  - reflexivity.
  - now left.
  - intros y Hy. apply H. now right.
Qed.
Lemma expand_length H V R (C : hash_contract H V R) prk info : bytes prk -> len prk < 2 ^ 61 -> bytes info ->
  Z.of_nat (block_bytes V) + Z.of_nat (digest_bytes V) + len info + 1 < 2 ^ 61 -> forall okm : list Z,
  (digest_bytes V <=? length prk)%nat && (length okm <=? 255 * digest_bytes V)%nat = true ->
  length (HKDF_Expand_SHA2 V prk info (length okm)) = length okm.
Proof.
  intros Bp Lp Bi Hil okm Hc. pose proof (hc_ds_range _ _ _ C) as Hds.
  unfold HKDF_Expand_SHA2, HKDF_Expand. set (N := ((length okm + digest_bytes V - 1) / digest_bytes V)%nat).
  assert (HN : (length okm <= N * digest_bytes V)%nat).
  { unfold N. pose proof (Nat.mul_succ_div_gt (length okm + digest_bytes V - 1) (digest_bytes V) ltac:(lia)). lia. }
  assert (HN2 : (N <= 255)%nat).
  { unfold N. apply Nat.lt_succ_r. apply Nat.div_lt_upper_bound; lia. }
  rewrite firstn_length, (concat_const (digest_bytes V)), seq_length; [lia|].
  intros x Hx. apply in_seq in Hx. destruct x as [|x]; [lia|].
  apply (T_length H V R C prk info Bp Lp Bi). lia.
Qed.
