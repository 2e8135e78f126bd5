(** The answers of GCM depend on the values of the block cipher at a few blocks only. *)
From Verif Require Import Base Hex M_Aes M_Gcm S_Gcm T_Gcm T_GcmPrivacy.
From Verif Require BaseFacts.

Lemma zero_block : is_block (repeat 0 16).
Proof. ok_bytes. Qed.
Lemma J0_block n : gcm_nonce n -> is_block (J0 n).
Proof.
  intros Hn. split; [unfold J0; rewrite app_length, (proj1 Hn); reflexivity|]. apply BaseFacts.bytes_app. split; [exact (proj2 Hn)|]. now apply BaseFacts.bytesb_spec.
Qed.
Lemma ctr_block n j : gcm_nonce n -> is_block (counter_block n j).
Proof.
  intros Hn. split; [unfold counter_block; rewrite app_length, (proj1 Hn), BaseFacts.be_encode_length; reflexivity|].
  apply BaseFacts.bytes_app. split; [exact (proj2 Hn)|apply BaseFacts.be_encode_bytes].
Qed.

Lemma answer_ext b l f f' q : block_fn f -> block_fn f' ->
  gcm_nonce (q_nonce q) -> gcm_data (q_data q) -> gcm_message (q_left q) -> gcm_message (q_right q) ->
  length (q_left q) = length (q_right q) ->
  f' (J0 (q_nonce q)) = f (J0 (q_nonce q)) -> f' (repeat 0 16) = f (repeat 0 16) ->
  (forall j, (16 * j < length (q_left q))%nat -> f' (counter_block (q_nonce q) j) = f (counter_block (q_nonce q) j)) ->
  lr_answer b l f' q = lr_answer b l f q.
Proof.
  intros Hf Hf' Hn Hd Hml Hmr Hl HJ H0 HC.
  pose (q' := {| q_nonce := q_nonce q; q_data := q_data q; q_left := q_msg q l; q_right := q_msg q l |}).
  assert (Hm : gcm_message (q_msg q l)) by (destruct l; assumption).
  assert (HL : length (q_msg q l) = length (q_left q)) by (destruct l; [reflexivity|now symmetry]).
  assert (E := answer_eq b true f f' q' Hf Hf' Hn Hd Hm Hm eq_refl HJ H0).
  assert (E' : lr_answer b (negb true) f' q' = lr_answer b true f q').
  { apply E. intros j n Hn16 Hj. cbn [q' q_left q_right q_nonce] in *. rewrite HL in Hj. rewrite HC by assumption.
    rewrite Z.lxor_nilpotent, Z.lxor_0_r. reflexivity. }
  exact E'.
Qed.
Lemma run_ext b l A f f' n : admissible n A -> block_fn f -> block_fn f' -> (forall x, is_block x -> f' x = f x) ->
  forall i, (i <= n)%nat -> lr_run b l A f' i = lr_run b l A f i.
Proof.
  intros HA Hf Hf' H. induction i as [|i IH]; intros Hi; [reflexivity|]. cbn [lr_run]. rewrite IH by lia. f_equal. f_equal.
  destruct (HA (lr_run b l A f i)) as (Hn & Hd & Hml & Hmr & Hl & _); [rewrite run_length; lia|].
  apply answer_ext; try assumption; [| |intros j _]; apply H; [now apply J0_block|apply zero_block|now apply ctr_block].
Qed.
Lemma queries_ext b b' l l' A f f' n : lr_run b l A f n = lr_run b' l' A f' n -> queries b l A f n = queries b' l' A f' n.
Proof.
  intros E. unfold queries. apply map_ext_in. intros i Hi. apply in_seq in Hi.
  rewrite <- (run_firstn b l A f n i) by lia. rewrite E, run_firstn by lia. reflexivity.
Qed.
(** The number of counter blocks of a query. *)
Definition nctr (q : lr_query) : nat := ((length (q_left q) + 15) / 16)%nat.
Lemma nctr_spec q j : (16 * j < length (q_left q))%nat -> (j < nctr q)%nat.
Proof. intros H. unfold nctr. apply Nat.div_le_lower_bound; lia. Qed.
Definition ctrs (q : lr_query) : list (list Z) := map (counter_block (q_nonce q)) (seq 0 (nctr q)).
Lemma ctrs_in q j : (16 * j < length (q_left q))%nat -> In (counter_block (q_nonce q) j) (ctrs q).
Proof. intros H. apply in_map, in_seq. pose proof (nctr_spec q j H). lia. Qed.
Lemma ctrs_length q : length (ctrs q) = nctr q.
Proof. unfold ctrs. now rewrite map_length, seq_length. Qed.
