(** Moving the hash key without changing the answers of GCM. *)
From Verif Require Import Base Hex M_Aes M_Gcm S_Gcm T_Gcm T_Forge T_GcmPrivacy P_GcmExt S_GcmAuth.
From Verif Require BaseFacts P_Gcm.

Notation zb := (repeat 0 16).
Local Opaque GHASH.
Lemma xorl_assoc : forall a b c, xorl a (xorl b c) = xorl (xorl a b) c.
Proof. unfold xorl. induction a as [|x a IH]; intros [|y b] [|z c]; try reflexivity. cbn [zipwith]. rewrite IH, Z.lxor_assoc. reflexivity. Qed.
Lemma ghash_block H X : is_block (GHASH H X).
Proof.
  Local Transparent GHASH. split; [unfold GHASH, poly_block; now rewrite map_length, seq_length|]. unfold GHASH, poly_block.
  Local Opaque GHASH.
  apply Forall_forall. intros y Hy. apply in_map_iff in Hy. destruct Hy as (k & <- & _). set (p := fold_left _ _ _). clearbody p.
  cbn [seq map fold_right]. unfold byte_ok.
  assert (Hb : forall v, 0 <= Z.b2z v <= 1) by (intros []; cbn; lia).
  repeat match goal with |- context [Z.b2z ?v] => let H := fresh in pose proof (Hb v) as H; generalize dependent (Z.b2z v); intros end.
  cbn [Nat.sub]. lia.
Qed.
Lemma tag_eq f iv A C : block_fn f -> gcm_nonce iv -> gcm_data A -> gcm_message C ->
  gcm_auth_tag f iv A C = xorl (f (J0 iv)) (GHASH (f zb) (ghash_input A C)).
Proof.
  intros Hf Hn Hd Hm. destruct (C32_decrypt_accepts_exactly ideal f Hf iv A C Hn Hd Hm) as (_ & _ & _ & H).
  specialize (H Unchecked (repeat 0 (length C)) (repeat_length _ _) (or_introl eq_refl)).
  assert (Bm : bytes (gcm_ciphertext (bc_permute ideal f) iv C)) by (apply (P_Gcm.gcm_ct_bytes ideal f Hf iv (proj1 Hn) (proj2 Hn)); exact (proj1 Hm)).
  exact (proj1 (proj2 (proj2 (C35_counter_blocks_distinct ideal f Hf _ _ _ _ _ _ _ (proj2 Hn) (proj1 Hd) Bm H)))).
Qed.
Lemma ct_ctr f f' iv m : block_fn f -> block_fn f' -> gcm_nonce iv -> gcm_message m ->
  (forall j, (16 * j < length m)%nat -> f' (counter_block iv j) = f (counter_block iv j)) ->
  gcm_ciphertext f' iv m = gcm_ciphertext f iv m.
Proof.
  intros Hf Hf' Hn Hm HC. assert (Hd : gcm_data []) by ok_bytes.
  assert (E1 := C30_gcm_is_sp800_38d ideal f Hf Unchecked iv [] m (repeat 0 (length m)) Hn Hd Hm (repeat_length _ _) (or_introl eq_refl)).
  assert (E2 := C30_gcm_is_sp800_38d ideal f' Hf' Unchecked iv [] m (repeat 0 (length m)) Hn Hd Hm (repeat_length _ _) (or_introl eq_refl)).
  cbv zeta in E1, E2. change (bc_permute ideal f) with f in E1. change (bc_permute ideal f') with f' in E2.
  destruct (C35_counter_blocks_distinct ideal f Hf _ _ _ _ _ _ _ (proj2 Hn) (proj1 Hd) (proj1 Hm) E1) as (L1 & N1 & _).
  destruct (C35_counter_blocks_distinct ideal f' Hf' _ _ _ _ _ _ _ (proj2 Hn) (proj1 Hd) (proj1 Hm) E2) as (L2 & N2 & _).
  apply (nth_ext _ _ 0 0); [now rewrite L1, L2|]. intros i Hi. rewrite L2 in Hi. rewrite N1, N2 by assumption. cbn [bc_permute ideal].
  rewrite HC; [reflexivity|]. pose proof (Nat.div_mod i 16 ltac:(lia)). lia.
Qed.
Definition hinput (f : list Z -> list Z) (q : lr_query) := ghash_input (q_data q) (gcm_ciphertext f (q_nonce q) (q_left q)).
Lemma ct_message f iv m : block_fn f -> gcm_nonce iv -> gcm_message m -> gcm_message (gcm_ciphertext f iv m) /\ len (gcm_ciphertext f iv m) = len m.
Proof.
  intros Hf Hn Hm.
  assert (Bm : bytes (gcm_ciphertext (bc_permute ideal f) iv m)) by (apply (P_Gcm.gcm_ct_bytes ideal f Hf iv (proj1 Hn) (proj2 Hn)); exact (proj1 Hm)).
  assert (Lm : length (gcm_ciphertext (bc_permute ideal f) iv m) = length m) by (apply (P_Gcm.gcm_ct_length ideal f Hf iv (proj1 Hn) (proj2 Hn))).
  change (bc_permute ideal f) with f in *. assert (L : len (gcm_ciphertext f iv m) = len m) by (unfold len; now rewrite Lm).
  split; [|exact L]. split; [exact Bm|]. rewrite L. exact (proj2 Hm).
Qed.
(** The answer depends on the hash key only through the tag. *)
Lemma answer_val b f q : block_fn f -> gcm_nonce (q_nonce q) -> gcm_data (q_data q) -> gcm_message (q_left q) ->
  b = Unchecked \/ len (q_left q) <= checked_limit ->
  lr_answer b true f q = Ok (gcm_ciphertext f (q_nonce q) (q_left q), xorl (f (J0 (q_nonce q))) (GHASH (f zb) (hinput f q))).
Proof.
  intros Hf Hn Hd Hm Hl. unfold lr_answer. cbn [q_msg].
  assert (E1 := C30_gcm_is_sp800_38d ideal f Hf b (q_nonce q) (q_data q) (q_left q) _ Hn Hd Hm (repeat_length 0 _) Hl).
  cbv zeta in E1. change (bc_permute ideal f) with f in E1. rewrite E1. unfold hinput. rewrite tag_eq; try assumption; [reflexivity|]. now apply ct_message.
Qed.

(** ** The blocks of GCM are all different *)
Lemma J0_ctr n : J0 n = n ++ be_encode 4 1. Proof. reflexivity. Qed.
Lemma J0_zero n : length n = 12%nat -> J0 n <> zb.
Proof.
  intros L E. destruct (nonce_ctr n 1 L ltac:(lia)) as [_ E2]. rewrite <- J0_ctr, E in E2. discriminate E2.
Qed.
Lemma J0_inj n n' : length n = 12%nat -> length n' = 12%nat -> J0 n = J0 n' -> n = n'.
Proof.
  intros L L' E. destruct (nonce_ctr n 1 L ltac:(lia)) as [E1 _]. destruct (nonce_ctr n' 1 L' ltac:(lia)) as [E2 _].
  rewrite <- J0_ctr in E1, E2. congruence.
Qed.
Lemma ctr_J0 n n' j : length n = 12%nat -> length n' = 12%nat -> 2 + Z.of_nat j < 2 ^ 32 -> counter_block n j <> J0 n'.
Proof.
  intros L L' Hj E. destruct (nonce_ctr n (2 + Z.of_nat j) L ltac:(lia)) as [_ E1]. destruct (nonce_ctr n' 1 L' ltac:(lia)) as [_ E2].
  unfold counter_block in E. rewrite E, J0_ctr in E1. lia.
Qed.
Lemma ctr_zero n j : length n = 12%nat -> 2 + Z.of_nat j < 2 ^ 32 -> counter_block n j <> zb.
Proof.
  intros L Hj E. destruct (nonce_ctr n (2 + Z.of_nat j) L ltac:(lia)) as [_ E1]. unfold counter_block in E. rewrite E in E1.
  change (be_decode (skipn 12 zb)) with 0 in E1. lia.
Qed.

(** ** A new hash key *)
Definition isJ (x : list Z) (q : lr_query) : bool := if list_eq_dec Z.eq_dec x (J0 (q_nonce q)) then true else false.
Definition rekey (qs : list lr_query) (f : list Z -> list Z) (h x : list Z) : list Z :=
  if list_eq_dec Z.eq_dec x zb then h
  else match find (isJ x) qs with
       | Some q => xorl (f x) (xorl (GHASH (f zb) (hinput f q)) (GHASH h (hinput f q)))
       | None => f x
       end.
Definition good_queries (qs : list lr_query) : Prop :=
  NoDup (map q_nonce qs) /\ forall q, In q qs -> gcm_nonce (q_nonce q) /\ gcm_data (q_data q) /\ gcm_message (q_left q).
Lemma xorl_block a c : is_block a -> is_block c -> is_block (xorl a c).
Proof. intros [L1 B1] [L2 B2]. split; [rewrite BaseFacts.xorl_length; lia|now apply BaseFacts.xorl_bytes]. Qed.
Lemma rekey_block qs f h : block_fn f -> is_block h -> block_fn (rekey qs f h).
Proof.
  intros Hf Hh x Hx. unfold rekey. destruct list_eq_dec; [assumption|]. destruct find; [|now apply Hf].
  apply xorl_block; [now apply Hf|]. apply xorl_block; apply ghash_block.
Qed.
Lemma rekey_zero qs f h : rekey qs f h zb = h.
Proof. unfold rekey. destruct list_eq_dec as [_|N]; [reflexivity|now destruct N]. Qed.
Lemma rekey_ctr qs f h n j : good_queries qs -> length n = 12%nat -> 2 + Z.of_nat j < 2 ^ 32 -> rekey qs f h (counter_block n j) = f (counter_block n j).
Proof.
  intros [_ G] L Hj. unfold rekey. destruct list_eq_dec as [E|_]; [now apply ctr_zero in E|].
  destruct (find _ qs) as [q|] eqn:Ef; [|reflexivity]. apply find_some in Ef. destruct Ef as [Hq Ej]. unfold isJ in Ej.
  destruct list_eq_dec as [E|_]; [|discriminate]. exfalso. revert E. apply ctr_J0; [assumption| |assumption]. exact (proj1 (proj1 (G q Hq))).
Qed.
Lemma find_J qs q : good_queries qs -> In q qs -> find (isJ (J0 (q_nonce q))) qs = Some q.
Proof.
  intros [ND G] Hq. destruct (find _ qs) as [q'|] eqn:Ef.
  - apply find_some in Ef. destruct Ef as [Hq' Ej]. unfold isJ in Ej. destruct list_eq_dec as [E|_]; [|discriminate].
    apply J0_inj in E; [|exact (proj1 (proj1 (G q Hq)))|exact (proj1 (proj1 (G q' Hq')))]. f_equal.
    destruct (In_nth qs q q Hq) as (i & Hi & Ei). destruct (In_nth qs q' q Hq') as (i' & Hi' & Ei').
    assert (i = i') as ->; [|congruence].
    apply (proj1 (NoDup_nth (map q_nonce qs) (q_nonce q)) ND); rewrite ?map_length; try assumption.
    rewrite !map_nth, Ei, Ei'. exact E.
  - exfalso. pose proof (find_none _ _ Ef q Hq) as N. unfold isJ in N. destruct list_eq_dec as [_|NE]; [discriminate|now destruct NE].
Qed.
Lemma rekey_J qs f h q : good_queries qs -> In q qs ->
  rekey qs f h (J0 (q_nonce q)) = xorl (f (J0 (q_nonce q))) (xorl (GHASH (f zb) (hinput f q)) (GHASH h (hinput f q))).
Proof.
  intros G Hq. unfold rekey. destruct list_eq_dec as [E|_]; [apply J0_zero in E; [easy|exact (proj1 (proj1 (proj2 G q Hq)))]|].
  now rewrite find_J.
Qed.
Lemma msg_ctr m j : gcm_message m -> (16 * j < length m)%nat -> 2 + Z.of_nat j < 2 ^ 32.
Proof. intros [_ L] H. unfold len in L. lia. Qed.
Lemma rekey_ct qs f h q : good_queries qs -> In q qs -> block_fn f -> is_block h ->
  gcm_ciphertext (rekey qs f h) (q_nonce q) (q_left q) = gcm_ciphertext f (q_nonce q) (q_left q).
Proof.
  intros G Hq Hf Hh. destruct (proj2 G q Hq) as (Hn & Hd & Hm). apply ct_ctr; try assumption; [now apply rekey_block|].
  intros j Hj. apply rekey_ctr; [assumption|exact (proj1 Hn)|now apply (msg_ctr (q_left q))].
Qed.
Lemma rekey_hinput qs f h q : good_queries qs -> In q qs -> block_fn f -> is_block h -> hinput (rekey qs f h) q = hinput f q.
Proof. intros. unfold hinput. now rewrite rekey_ct. Qed.
Lemma xorl_back a c : is_block a -> is_block c -> xorl (xorl a c) c = a.
Proof. intros [L1 _] [L2 _]. apply BaseFacts.xorl_cancel. lia. Qed.
Lemma rekey_answer b qs f h q : good_queries qs -> In q qs -> block_fn f -> is_block h -> b = Unchecked \/ len (q_left q) <= checked_limit ->
  lr_answer b true (rekey qs f h) q = lr_answer b true f q.
Proof.
  intros G Hq Hf Hh Hl. destruct (proj2 G q Hq) as (Hn & Hd & Hm).
  rewrite !answer_val by (try assumption; now apply rekey_block). rewrite rekey_hinput, rekey_ct, rekey_zero, rekey_J by assumption.
  do 2 f_equal. rewrite xorl_assoc. apply xorl_back; [|apply ghash_block].
  apply xorl_block; [|apply ghash_block]. now apply Hf, J0_block.
Qed.
Lemma rekey_back qs f h x : good_queries qs -> block_fn f -> is_block h -> is_block x -> rekey qs (rekey qs f h) (f zb) x = f x.
Proof.
  intros G Hf Hh Hx. unfold rekey at 1. destruct list_eq_dec as [->|Nz]; [reflexivity|]. destruct (find _ qs) as [q|] eqn:Ef.
  - pose proof (find_some _ _ Ef) as [Hq Ej]. rewrite rekey_hinput, rekey_zero by assumption.
    unfold isJ in Ej. destruct list_eq_dec as [E|_]; [|discriminate]. subst x. rewrite rekey_J by assumption.
    set (a := GHASH _ _). set (c := GHASH h _). assert (Ba : is_block a) by apply ghash_block. assert (Bc : is_block c) by apply ghash_block.
    rewrite (BaseFacts.xorl_comm a c). apply xorl_back; [now apply Hf|now apply xorl_block].
  - unfold rekey. destruct list_eq_dec as [E|_]; [now destruct Nz|]. now rewrite Ef.
Qed.
Definition set_at (f : list Z -> list Z) (p h x : list Z) : list Z := if list_eq_dec Z.eq_dec x p then h else f x.

(** ** The game *)
Section Game.
Variables (b : build) (n m : nat) (B : Z) (A : attacker) (F : forger).
Hypothesis HA : admissible n A.
Hypothesis HF : forger_ok b n m B A F.
Let run f := lr_run b true A f n.
Let qs f := queries b true A f n.

Lemma qs_in f q : In q (qs f) -> exists i, (i < n)%nat /\ q = A (lr_run b true A f i).
Proof. intros H. apply in_map_iff in H. destruct H as (i & <- & Hi). apply in_seq in Hi. exists i. split; [lia|reflexivity]. Qed.
Lemma qs_good f : good_queries (qs f).
Proof.
  split.
  - apply (NoDup_nth _ []). unfold qs, queries. rewrite !map_length, seq_length. intros i j Hi Hj E.
    rewrite map_map in E. rewrite !(nth_indep _ [] (q_nonce (A (lr_run b true A f 0)))) in E by (rewrite map_length, seq_length; assumption).
    rewrite !(map_nth (fun i => q_nonce (A (lr_run b true A f i)))), !seq_nth in E by assumption. cbn [Nat.add] in E.
    destruct (Nat.eq_dec i j) as [|Ne]; [assumption|]. exfalso. revert E. now apply (nonces_differ b true A f n).
  - intros q Hq. destruct (qs_in f q Hq) as (i & Hi & ->). destruct (HA (lr_run b true A f i)) as (Hn & Hd & Hm & _); [now rewrite run_length|]. tauto.
Qed.
Definition att (f : list Z -> list Z) (j : nat) : option attempt := nth_error (F (run f)) j.
Definition known (f : list Z -> list Z) (a : attempt) : bool := if in_dec (list_eq_dec Z.eq_dec) (a_nonce a) (map q_nonce (qs f)) then true else false.
Definition rho (j : nat) (f : list Z -> list Z) (h : list Z) : list Z -> list Z :=
  match att f j with
  | None => rekey (qs f) f h
  | Some a => if known f a then rekey (qs f) f h else set_at f (J0 (a_nonce a)) h
  end.
Definition old (j : nat) (f : list Z -> list Z) : list Z :=
  match att f j with
  | None => f zb
  | Some a => if known f a then f zb else f (J0 (a_nonce a))
  end.
Lemma att_ok f j a : att f j = Some a -> In a (F (run f)) /\ gcm_nonce (a_nonce a) /\ gcm_data (a_data a) /\ gcm_message (a_ct a) /\
       hash_blocks (a_data a) (a_ct a) <= B /\ ~ replayed A (run f) a.
Proof.
  intros E. apply nth_error_In in E. split; [exact E|]. destruct (proj2 HF (run f)) as [_ H]; [apply run_length|]. exact (H a E).
Qed.
Lemma rho_block j f h : block_fn f -> is_block h -> block_fn (rho j f h).
Proof.
  intros Hf Hh. unfold rho. destruct (att f j) as [a|]; [destruct known|]; try now apply rekey_block.
  intros x Hx. unfold set_at. destruct list_eq_dec; [assumption|now apply Hf].
Qed.
Lemma new_J f a q : known f a = false -> gcm_nonce (a_nonce a) -> In q (qs f) -> J0 (q_nonce q) <> J0 (a_nonce a).
Proof.
  intros K Hn Hq E. apply J0_inj in E; [|exact (proj1 (proj1 (proj2 (qs_good f) q Hq)))|exact (proj1 Hn)].
  unfold known in K. destruct in_dec as [|N]; [discriminate|]. apply N. rewrite <- E. now apply in_map.
Qed.
Lemma set_other f p h x : x <> p -> set_at f p h x = f x.
Proof. intros N. unfold set_at. destruct list_eq_dec; [easy|reflexivity]. Qed.
Lemma rho_run j f h : block_fn f -> is_block h -> forall i, (i <= n)%nat -> lr_run b true A (rho j f h) i = lr_run b true A f i.
Proof.
  intros Hf Hh. induction i as [|i IH]; intros Hi; [reflexivity|]. cbn [lr_run]. rewrite IH by lia. do 2 f_equal.
  set (q := A (lr_run b true A f i)).
  assert (Hq : In q (qs f)) by (apply (in_map (fun i => A (lr_run b true A f i))), in_seq; lia).
  destruct (HA (lr_run b true A f i)) as (Hn & Hd & Hml & Hmr & Hl & _); [rewrite run_length; lia|]. fold q in Hn, Hd, Hml, Hmr, Hl.
  assert (Lq : b = Unchecked \/ len (q_left q) <= checked_limit) by (apply (proj1 HF); rewrite run_length; lia).
  pose proof (rho_block j f h Hf Hh) as Hr. revert Hr.
  unfold rho. destruct (att f j) as [a|] eqn:Ea; [destruct (known f a) eqn:K|]; intros Hr; try (apply rekey_answer; try assumption; apply qs_good).
  destruct (att_ok f j a Ea) as (_ & Hna & _).
  apply answer_ext; try assumption.
  - apply set_other. now apply (new_J f a q).
  - apply set_other. intros E. symmetry in E. revert E. apply J0_zero. exact (proj1 Hna).
  - intros k Hk. apply set_other. apply ctr_J0; [exact (proj1 Hn)|exact (proj1 Hna)|now apply (msg_ctr (q_left q))].
Qed.
Lemma rho_run_n j f h : block_fn f -> is_block h -> run (rho j f h) = run f.
Proof. intros Hf Hh. now apply rho_run. Qed.
Lemma rho_qs j f h : block_fn f -> is_block h -> qs (rho j f h) = qs f.
Proof. intros Hf Hh. apply queries_ext. now apply rho_run. Qed.
Lemma rho_att j f h : block_fn f -> is_block h -> att (rho j f h) j = att f j.
Proof. intros Hf Hh. unfold att. now rewrite rho_run_n. Qed.
Lemma rho_known j f h a : block_fn f -> is_block h -> known (rho j f h) a = known f a.
Proof. intros Hf Hh. unfold known. now rewrite rho_qs. Qed.
Lemma rho_old j f h : block_fn f -> is_block h -> old j (rho j f h) = h.
Proof.
  intros Hf Hh. unfold old. rewrite rho_att by assumption. destruct (att f j) as [a|] eqn:Ea.
  - rewrite rho_known by assumption. unfold rho. rewrite Ea. destruct (known f a); [apply rekey_zero|].
    unfold set_at. destruct list_eq_dec as [_|N]; [reflexivity|now destruct N].
  - unfold rho. rewrite Ea. apply rekey_zero.
Qed.
Lemma rho_back j f h x : block_fn f -> is_block h -> is_block x -> rho j (rho j f h) (old j f) x = f x.
Proof.
  intros Hf Hh Hx. unfold rho at 1. rewrite rho_att, rho_qs by assumption. unfold old. destruct (att f j) as [a|] eqn:Ea.
  - rewrite rho_known by assumption. unfold rho. rewrite Ea. destruct (known f a) eqn:K; [apply rekey_back; try assumption; apply qs_good|].
    unfold set_at. destruct list_eq_dec as [->|N]; reflexivity.
  - unfold rho. rewrite Ea. apply rekey_back; try assumption. apply qs_good.
Qed.
(** The attempt has the right tag. *)
Definition right_tag (f : list Z -> list Z) (a : attempt) : Prop := a_tag a = gcm_auth_tag f (a_nonce a) (a_data a) (a_ct a).
Lemma hash_blocks_pos d c : 1 <= hash_blocks d c.
Proof. unfold hash_blocks, len. pose proof (Z.div_pos (Z.of_nat (length d) + 15) 16). pose proof (Z.div_pos (Z.of_nat (length c) + 15) 16). lia. Qed.
Lemma rho_bad j f a : block_fn f -> att f j = Some a -> exists bad : list (list Z), Z.of_nat (length bad) <= B /\
  forall h, is_block h -> right_tag (rho j f h) a -> In h bad.
Proof.
  intros Hf Ea. destruct (att_ok f j a Ea) as (_ & Hna & Hda & Hca & HB & Hrep).
  destruct (known f a) eqn:K.
  - unfold known in K. destruct in_dec as [I|]; [clear K|discriminate].
    apply in_map_iff in I. destruct I as (q & Eq & Hq). destruct (qs_in f q Hq) as (i & Hi & Ei).
    destruct (HA (lr_run b true A f i)) as (Hn & Hd & Hm & _); [now rewrite run_length|].
    destruct (proj1 HF (lr_run b true A f i)) as [HBq Lq]; [now rewrite run_length|].
    rewrite <- Ei in *.
    set (c := gcm_ciphertext f (q_nonce q) (q_left q)). set (t := xorl (f (J0 (q_nonce q))) (GHASH (f zb) (hinput f q))).
    assert (Ans : forall h, is_block h -> lr_answer b true (rho j f h) q = Ok (c, t)).
    { intros h Hh. assert (E1 := rho_run j f h Hf Hh (S i) ltac:(lia)). cbn [lr_run] in E1. rewrite (rho_run j f h Hf Hh i) in E1 by lia.
      rewrite <- Ei in E1. apply app_inj_tail in E1. destruct E1 as [_ E1]. rewrite E1. now apply answer_val. }
    destruct (ct_message f (q_nonce q) (q_left q) Hf Hn Hm) as [Hc Lc]. fold c in Hc, Lc.
    destruct (list_eq_dec Z.eq_dec (a_data a) (q_data q)) as [Ed|Nd]; [destruct (list_eq_dec Z.eq_dec (a_ct a) c) as [Ec|Nc]|].
    + exists []. split; [cbn; pose proof (hash_blocks_pos (a_data a) (a_ct a)); lia|]. intros h Hh R. exfalso. apply Hrep. exists i.
      assert (Lr : length (run f) = n) by apply run_length. split; [lia|].
      assert (Fi : firstn i (run f) = lr_run b true A f i) by (apply run_firstn; lia). rewrite Fi, <- Ei. split; [|now split].
      assert (Nt : nth i (run f) Panic = lr_answer b true f q).
      { unfold run. rewrite <- (firstn_skipn (S i) (lr_run b true A f n)), run_firstn by lia. rewrite app_nth1 by (rewrite run_length; lia).
        cbn [lr_run]. rewrite app_nth2, run_length, Nat.sub_diag by (rewrite run_length; lia). rewrite <- Ei. reflexivity. }
      rewrite Nt, answer_val by assumption. fold c t. rewrite Ec. do 2 f_equal.
      pose proof (Ans h Hh) as Ah. rewrite answer_val in Ah by (try assumption; now apply rho_block). injection Ah as Ac At.
      red in R. rewrite R, tag_eq by (try assumption; now apply rho_block). rewrite <- Eq, Ed, Ec, <- At. unfold hinput. now rewrite Ac.
    + destruct (C60_gcm_forgery_after_encrypt (q_data q) c t (a_data a) (a_ct a) (a_tag a) Hd Hc Hda Hca) as (bad & Lb & Hbad); [congruence|].
      exists bad. split.
      { unfold hash_blocks in *. rewrite Lc in Lb. lia. }
      intros h Hh R. pose proof (rho_block j f h Hf Hh) as Hr.
      destruct (C32_decrypt_accepts_exactly ideal (rho j f h) Hr _ _ _ Hna Hda Hca) as (_ & D & _).
      specialize (D Unchecked (repeat 0 (length (a_ct a))) (repeat_length _ _) (or_introl eq_refl)). change (bc_permute ideal (rho j f h)) with (rho j f h) in D.
      red in R. rewrite <- R in D. rewrite <- Eq in D.
      pose proof (Ans h Hh) as Ah. unfold lr_answer in Ah. cbn [q_msg] in Ah.
      assert (I : In (bc_permute ideal (rho j f h) zb) bad) by (eapply Hbad; [exact Hr| | |exact Ah|exact D]; [exact (proj2 Hn)|exact (proj1 Hm)]).
      change (bc_permute ideal (rho j f h)) with (rho j f h) in I. unfold rho in I. rewrite Ea in I. replace (known f a) with true in I.
      * rewrite rekey_zero in I. exact I.
      * unfold known. destruct in_dec as [_|N]; [reflexivity|]. destruct N. rewrite <- Eq. now apply in_map.
    + destruct (C60_gcm_forgery_after_encrypt (q_data q) c t (a_data a) (a_ct a) (a_tag a) Hd Hc Hda Hca) as (bad & Lb & Hbad); [congruence|].
      exists bad. split.
      { unfold hash_blocks in *. rewrite Lc in Lb. lia. }
      intros h Hh R. pose proof (rho_block j f h Hf Hh) as Hr.
      destruct (C32_decrypt_accepts_exactly ideal (rho j f h) Hr _ _ _ Hna Hda Hca) as (_ & D & _).
      specialize (D Unchecked (repeat 0 (length (a_ct a))) (repeat_length _ _) (or_introl eq_refl)). change (bc_permute ideal (rho j f h)) with (rho j f h) in D.
      red in R. rewrite <- R in D. rewrite <- Eq in D.
      pose proof (Ans h Hh) as Ah. unfold lr_answer in Ah. cbn [q_msg] in Ah.
      assert (I : In (bc_permute ideal (rho j f h) zb) bad) by (eapply Hbad; [exact Hr| | |exact Ah|exact D]; [exact (proj2 Hn)|exact (proj1 Hm)]).
      change (bc_permute ideal (rho j f h)) with (rho j f h) in I. unfold rho in I. rewrite Ea in I. replace (known f a) with true in I.
      * rewrite rekey_zero in I. exact I.
      * unfold known. destruct in_dec as [_|N]; [reflexivity|]. destruct N. rewrite <- Eq. now apply in_map.
  - exists [xorl (a_tag a) (GHASH (f zb) (ghash_input (a_data a) (a_ct a)))].
    split; [cbn [length]; pose proof (hash_blocks_pos (a_data a) (a_ct a)); lia|]. intros h Hh R. left.
    red in R. rewrite tag_eq in R by (try assumption; now apply rho_block). unfold rho in R. rewrite Ea, K in R.
    rewrite (set_other f _ h zb) in R by (intros E; symmetry in E; revert E; apply J0_zero; exact (proj1 Hna)).
    rewrite R. unfold set_at. destruct list_eq_dec as [_|N]; [|now destruct N]. apply xorl_back; [assumption|apply ghash_block].
Qed.
Lemma accepted_right f a : block_fn f -> In a (F (run f)) -> accepted b f a = true -> right_tag f a.
Proof.
  intros Hf I. destruct (proj2 HF (run f)) as [_ H]; [apply run_length|]. destruct (H a I) as (Hna & Hda & Hca & _).
  unfold accepted. destruct (gcm_decrypt _ _ _ _ _ _ _ _) as [[r ok]|] eqn:E; [|discriminate]. intros ->.
  exact (proj2 (gcm_accept_inv ideal f Hf _ _ _ _ _ _ _ (proj2 Hna) Hda Hca E)).
Qed.
(** The right tag depends on two blocks. *)
Lemma right_ext f f' a : block_fn f -> block_fn f' -> gcm_nonce (a_nonce a) -> gcm_data (a_data a) -> gcm_message (a_ct a) ->
  f' zb = f zb -> f' (J0 (a_nonce a)) = f (J0 (a_nonce a)) -> right_tag f' a <-> right_tag f a.
Proof. intros Hf Hf' Hn Hd Hc E1 E2. unfold right_tag. rewrite !tag_eq by assumption. rewrite E1, E2. reflexivity. Qed.
End Game.
