(** Lemmas about the vocabulary of Base.v. *)
From Verif Require Export Base.
From Coq Require Import ZifyBool ZifyNat.

Lemma bind_ok {A B} (a : A) (k : A -> res B) : bind (Ok a) k = k a.
Proof. reflexivity. Qed.

Lemma bind_assoc {A B C} (e : res A) (f : A -> res B) (g : B -> res C) :
  bind (bind e f) g = bind e (fun x => bind (f x) g).
Proof. destruct e; reflexivity. Qed.

Lemma assertb_true c : c = true -> assertb c = Ok tt.
Proof. intros ->; reflexivity. Qed.

Lemma uchk_ok b w v : 0 <= v < 2 ^ w -> uchk b w v = Ok v.
Proof.
  intros [H1 H2]. unfold uchk.
  apply Z.leb_le in H1. apply Z.ltb_lt in H2. rewrite H1, H2. reflexivity.
Qed.

Lemma uchk_unchecked w v : uchk Unchecked w v = Ok (v mod 2 ^ w).
Proof.
  unfold uchk. destruct (Z.leb_spec 0 v), (Z.ltb_spec v (2 ^ w)); cbn [andb]; try reflexivity.
  rewrite Z.mod_small by lia. reflexivity.
Qed.

Lemma uchk_checked_panic w v : (v < 0 \/ 2 ^ w <= v) -> uchk Checked w v = Panic.
Proof.
  intros H. unfold uchk.
  destruct (Z.leb_spec 0 v), (Z.ltb_spec v (2 ^ w)); cbn [andb]; try reflexivity; lia.
Qed.

Lemma schk_ok b w v : - 2 ^ (w - 1) <= v < 2 ^ (w - 1) -> schk b w v = Ok v.
Proof.
  intros [H1 H2]. unfold schk.
  apply Z.leb_le in H1. apply Z.ltb_lt in H2. rewrite H1, H2. reflexivity.
Qed.

(** ** Lengths *)
Lemma len_nil {A} : len (@nil A) = 0.
Proof. reflexivity. Qed.
Lemma len_cons {A} (x : A) l : len (x :: l) = 1 + len l.
Proof. unfold len; cbn [length]; lia. Qed.
Lemma len_app {A} (l m : list A) : len (l ++ m) = len l + len m.
Proof. unfold len; rewrite app_length; lia. Qed.
Lemma len_nonneg {A} (l : list A) : 0 <= len l.
Proof. unfold len; lia. Qed.

(** ** Bytes *)
Lemma bytes_nil : bytes [].
Proof. constructor. Qed.
Lemma bytes_cons x l : bytes (x :: l) <-> byte_ok x /\ bytes l.
Proof. split; [intros H; inversion H; auto | intros [? ?]; constructor; auto]. Qed.
Lemma bytes_app l m : bytes (l ++ m) <-> bytes l /\ bytes m.
Proof. apply Forall_app. Qed.
Lemma bytes_firstn n l : bytes l -> bytes (firstn n l).
Proof. intros H. rewrite <- (firstn_skipn n l) in H. apply bytes_app in H. tauto. Qed.
Lemma bytes_skipn n l : bytes l -> bytes (skipn n l).
Proof. intros H. rewrite <- (firstn_skipn n l) in H. apply bytes_app in H. tauto. Qed.
Lemma bytes_rev l : bytes l -> bytes (rev l).
Proof. intros H. unfold bytes in *. rewrite Forall_forall in *. intros x Hx. apply H. now apply in_rev. Qed.
Lemma bytes_repeat x n : byte_ok x -> bytes (repeat x n).
Proof. intros H. induction n; cbn; constructor; auto. Qed.
Lemma bytesb_spec l : bytesb l = true <-> bytes l.
Proof.
  unfold bytesb, bytes. rewrite forallb_forall, Forall_forall.
  split; intros H x Hx; specialize (H x Hx); unfold byte_okb, byte_ok in *; lia.
Qed.
Lemma bytes_concat ls : Forall bytes ls -> bytes (concat ls).
Proof. induction 1; cbn; [constructor|]. apply bytes_app; auto. Qed.
Lemma bytes_flat_map {A} (f : A -> list Z) l : (forall x, In x l -> bytes (f x)) -> bytes (flat_map f l).
Proof.
  induction l as [|x l IH]; cbn; intros H; [constructor|].
  apply bytes_app; split; auto.
Qed.
Lemma bytes_nth l i : bytes l -> byte_ok (nth i l 0).
Proof.
  intros H. destruct (Nat.lt_ge_cases i (length l)).
  - unfold bytes in H; rewrite Forall_forall in H. apply H. now apply nth_In.
  - rewrite nth_overflow by lia. unfold byte_ok; lia.
Qed.

(** ** Bitwise operations stay in range *)
Lemma testbit_high x w n : 0 <= x < 2 ^ w -> w <= n -> Z.testbit x n = false.
Proof.
  intros [H0 H] Hn. destruct (Z.eq_dec x 0) as [->|Hx]; [apply Z.bits_0|].
  apply Z.bits_above_log2; [lia|].
  assert (0 < x) by lia. apply Z.log2_lt_pow2 in H; [|lia]. lia.
Qed.

Lemma range_testbit x w : 0 <= w -> 0 <= x -> (forall n, w <= n -> Z.testbit x n = false) -> x < 2 ^ w.
Proof.
  intros Hw Hx H. destruct (Z.eq_dec x 0) as [->|Hn]; [apply Z.pow_pos_nonneg; lia|].
  destruct (Z.lt_ge_cases x (2 ^ w)) as [|Hge]; [assumption|].
  apply Z.log2_le_pow2 in Hge; [|lia].
  assert (Hb := Z.bit_log2 x ltac:(lia)). rewrite H in Hb by lia. discriminate.
Qed.

Lemma lxor_range w x y : 0 <= w -> 0 <= x < 2 ^ w -> 0 <= y < 2 ^ w -> 0 <= Z.lxor x y < 2 ^ w.
Proof.
  intros Hw Hx Hy. assert (0 <= Z.lxor x y) by (apply Z.lxor_nonneg; lia). split; [assumption|].
  apply range_testbit; auto. intros n Hn. rewrite Z.lxor_spec, (testbit_high x w), (testbit_high y w) by auto. reflexivity.
Qed.
Lemma lor_range w x y : 0 <= w -> 0 <= x < 2 ^ w -> 0 <= y < 2 ^ w -> 0 <= Z.lor x y < 2 ^ w.
Proof.
  intros Hw Hx Hy. assert (0 <= Z.lor x y) by (apply Z.lor_nonneg; lia). split; [assumption|].
  apply range_testbit; auto. intros n Hn. rewrite Z.lor_spec, (testbit_high x w), (testbit_high y w) by auto. reflexivity.
Qed.
Lemma land_range w x y : 0 <= w -> 0 <= x < 2 ^ w -> 0 <= y -> 0 <= Z.land x y < 2 ^ w.
Proof.
  intros Hw Hx Hy. assert (0 <= Z.land x y) by (apply Z.land_nonneg; lia). split; [assumption|].
  apply range_testbit; auto. intros n Hn. rewrite Z.land_spec, (testbit_high x w) by auto. reflexivity.
Qed.

Lemma byte_lxor x y : byte_ok x -> byte_ok y -> byte_ok (Z.lxor x y).
Proof. unfold byte_ok. change 256 with (2 ^ 8). apply lxor_range; lia. Qed.

Lemma lxor_cancel x y : Z.lxor (Z.lxor x y) y = x.
Proof. rewrite Z.lxor_assoc, Z.lxor_nilpotent, Z.lxor_0_r. reflexivity. Qed.

(** ** zipwith / xorl *)
Lemma zipwith_length {A B C} (f : A -> B -> C) l m : length (zipwith f l m) = Nat.min (length l) (length m).
Proof. revert m; induction l as [|x l IH]; intros [|y m]; cbn; auto. Qed.
Lemma xorl_length l m : length (xorl l m) = Nat.min (length l) (length m).
Proof. apply zipwith_length. Qed.
Lemma zipwith_app {A B C} (f : A -> B -> C) l1 l2 m1 m2 :
  length l1 = length m1 -> zipwith f (l1 ++ l2) (m1 ++ m2) = zipwith f l1 m1 ++ zipwith f l2 m2.
Proof.
  revert m1; induction l1 as [|x l IH]; intros [|y m]; cbn; intros H; try discriminate; auto.
  f_equal; apply IH; lia.
Qed.
Lemma xorl_app l1 l2 m1 m2 : length l1 = length m1 -> xorl (l1 ++ l2) (m1 ++ m2) = xorl l1 m1 ++ xorl l2 m2.
Proof. apply zipwith_app. Qed.
Lemma xorl_bytes l m : bytes l -> bytes m -> bytes (xorl l m).
Proof.
  intros H; revert m; induction H as [|x l Hx Hl IH]; intros [|y m] Hm; cbn; try constructor.
  - apply bytes_cons in Hm. apply byte_lxor; tauto.
  - apply IH. apply bytes_cons in Hm; tauto.
Qed.
Lemma xorl_cancel l m : (length l <= length m)%nat -> xorl (xorl l m) m = l.
Proof.
  revert m; induction l as [|x l IH]; intros [|y m]; cbn; intros H; auto; try lia.
  rewrite lxor_cancel. f_equal. apply IH; lia.
Qed.
Lemma xorl_comm l m : xorl l m = xorl m l.
Proof.
  revert m; induction l as [|x l IH]; intros [|y m]; cbn; auto.
  rewrite Z.lxor_comm. f_equal; apply IH.
Qed.
Lemma zipwith_nil_r {A B C} (f : A -> B -> C) l : zipwith f l [] = [].
Proof. destruct l; reflexivity. Qed.
Lemma xorl_firstn_r l m : xorl l (firstn (length l) m) = xorl l m.
Proof.
  revert m; induction l as [|x l IH]; intros [|y m]; cbn; auto.
  f_equal; apply IH.
Qed.
Lemma xorl_firstn_l l m n : xorl (firstn n l) m = firstn n (xorl l m).
Proof.
  revert m n; induction l as [|x l IH]; intros [|y m] [|n]; cbn; auto.
  f_equal; apply IH.
Qed.

(** ** upd / get *)
Lemma upd_length {A} (l : list A) i v : length (upd l i v) = length l.
Proof. revert i; induction l as [|x l IH]; intros [|i]; cbn; auto. Qed.
Lemma get_upd l i j v : (i < length l)%nat -> get (upd l i v) j = if (i =? j)%nat then v else get l j.
Proof.
  unfold get. revert i j; induction l as [|x l IH]; intros [|i] [|j]; cbn; intros H; auto; try lia.
  - apply IH; lia.
Qed.

(** ** Little/big endian *)
Lemma le_encode_length n x : length (le_encode n x) = n.
Proof. revert x; induction n as [|n IH]; intros x; cbn; auto. Qed.
Lemma be_encode_length n x : length (be_encode n x) = n.
Proof. unfold be_encode. rewrite rev_length. apply le_encode_length. Qed.
Lemma le_encode_bytes n x : bytes (le_encode n x).
Proof.
  revert x; induction n as [|n IH]; intros x; cbn [le_encode]; constructor.
  - unfold byte_ok. apply Z.mod_pos_bound. lia.
  - apply IH.
Qed.
Lemma be_encode_bytes n x : bytes (be_encode n x).
Proof. apply bytes_rev, le_encode_bytes. Qed.
Lemma le_decode_cons x l : le_decode (x :: l) = x + 256 * le_decode l.
Proof. reflexivity. Qed.
Lemma le_decode_app l m : le_decode (l ++ m) = le_decode l + 256 ^ len l * le_decode m.
Proof.
  induction l as [|x l IH]; cbn [app].
  - rewrite (@len_nil Z), Z.pow_0_r. change (le_decode []) with 0. lia.
  - rewrite !le_decode_cons, IH, len_cons, Z.pow_add_r by (pose proof (len_nonneg l); lia). lia.
Qed.
Lemma le_decode_range l : bytes l -> 0 <= le_decode l < 256 ^ len l.
Proof.
  induction 1 as [|x l Hx Hl IH]; [cbn; lia|].
  rewrite le_decode_cons, len_cons, Z.pow_add_r by (pose proof (len_nonneg l); lia).
  unfold byte_ok in Hx. lia.
Qed.
Lemma be_decode_range l : bytes l -> 0 <= be_decode l < 256 ^ len l.
Proof.
  intros H. unfold be_decode.
  replace (len l) with (len (rev l)) by (unfold len; rewrite rev_length; reflexivity).
  apply le_decode_range, bytes_rev, H.
Qed.
Lemma le_decode_encode n x : le_decode (le_encode n x) = x mod 256 ^ Z.of_nat n.
Proof.
  revert x; induction n as [|n IH]; intros x; cbn [le_encode].
  - cbn. rewrite Z.mod_1_r. reflexivity.
  - rewrite le_decode_cons, IH.
    replace (Z.of_nat (S n)) with (1 + Z.of_nat n) by lia.
    rewrite Z.pow_add_r by lia. rewrite Z.pow_1_r.
    rewrite Z.rem_mul_r by lia. reflexivity.
Qed.
Lemma le_encode_decode l : bytes l -> le_encode (length l) (le_decode l) = l.
Proof.
  induction 1 as [|x l Hx Hl IH]; [reflexivity|].
  cbn [length le_encode]. rewrite le_decode_cons. unfold byte_ok in Hx.
  replace ((x + 256 * le_decode l) mod 256) with x.
  2:{ symmetry. rewrite Z.mul_comm, Z.mod_add, Z.mod_small; lia. }
  replace ((x + 256 * le_decode l) / 256) with (le_decode l).
  2:{ symmetry. rewrite Z.mul_comm, Z.div_add, Z.div_small; lia. }
  now rewrite IH.
Qed.
Lemma be_decode_encode n x : be_decode (be_encode n x) = x mod 256 ^ Z.of_nat n.
Proof. unfold be_decode, be_encode. rewrite rev_involutive. apply le_decode_encode. Qed.
Lemma be_encode_decode l : bytes l -> be_encode (length l) (be_decode l) = l.
Proof.
  intros H. unfold be_encode, be_decode. rewrite <- (rev_length l).
  rewrite le_encode_decode by (apply bytes_rev, H). apply rev_involutive.
Qed.
Lemma le_decode_inj l m : bytes l -> bytes m -> length l = length m -> le_decode l = le_decode m -> l = m.
Proof.
  intros Hl Hm Hn H. rewrite <- (le_encode_decode l), <- (le_encode_decode m) by assumption. congruence.
Qed.
Lemma le_encode_mod n x : le_encode n (x mod 256 ^ Z.of_nat n) = le_encode n x.
Proof.
  apply le_decode_inj; try apply le_encode_bytes.
  - now rewrite !le_encode_length.
  - rewrite !le_decode_encode. apply Z.mod_mod. apply Z.pow_nonzero; lia.
Qed.
Lemma be_encode_mod n x : be_encode n (x mod 256 ^ Z.of_nat n) = be_encode n x.
Proof. unfold be_encode. now rewrite le_encode_mod. Qed.
Lemma le_encode_small_inj n x y :
  0 <= x < 256 ^ Z.of_nat n -> 0 <= y < 256 ^ Z.of_nat n -> le_encode n x = le_encode n y -> x = y.
Proof.
  intros Hx Hy H. apply (f_equal le_decode) in H. rewrite !le_decode_encode in H.
  rewrite !Z.mod_small in H; auto.
Qed.

(** ** chunks *)
Lemma chunks_aux_fuel {A} n (Hn : (0 < n)%nat) : forall f g (l : list A),
  (length l <= f)%nat -> (length l <= g)%nat -> chunks_aux f n l = chunks_aux g n l.
Proof.
  induction f as [|f IH]; intros [|g] l Hf Hg.
  - reflexivity.
  - destruct l; [reflexivity | cbn in Hf; lia].
  - destruct l; [reflexivity | cbn in Hg; lia].
  - destruct l as [|x l]; [reflexivity|]. cbn [chunks_aux]. f_equal. apply IH.
    + rewrite skipn_length. cbn [length] in *. lia.
    + rewrite skipn_length. cbn [length] in *. lia.
Qed.
Lemma chunks_nil {A} n : chunks n (@nil A) = [].
Proof. reflexivity. Qed.
Lemma chunks_cons {A} n (l : list A) : (0 < n)%nat -> l <> [] ->
  chunks n l = firstn n l :: chunks n (skipn n l).
Proof.
  intros Hn Hl. destruct l as [|x l]; [congruence|].
  unfold chunks. cbn [length chunks_aux]. f_equal.
  apply chunks_aux_fuel; [assumption| |lia].
  rewrite skipn_length. cbn [length]. lia.
Qed.
Lemma chunks_app {A} n (l m : list A) : (0 < n)%nat -> length l = n ->
  chunks n (l ++ m) = l :: chunks n m.
Proof.
  intros Hn Hl. rewrite chunks_cons; [|assumption|].
  - rewrite <- Hl, firstn_app, firstn_all, Nat.sub_diag, skipn_app, skipn_all, Nat.sub_diag. cbn.
    now rewrite app_nil_r.
  - destruct l; [cbn in Hl; lia | discriminate].
Qed.
Lemma chunks_short {A} n (l : list A) : l <> [] -> (length l <= n)%nat -> chunks n l = [l].
Proof.
  intros Hl Hn. destruct l as [|x l]; [congruence|].
  rewrite chunks_cons; [| cbn in Hn; lia | discriminate].
  rewrite firstn_all2 by assumption. rewrite skipn_all2 by assumption. reflexivity.
Qed.

(** Induction along [chunks]. *)
Lemma chunks_ind {A} n (Hn : (0 < n)%nat) (P : list A -> Prop) :
  P [] -> (forall l, l <> [] -> P (skipn n l) -> P l) -> forall l, P l.
Proof.
  intros H0 H l. remember (length l) as k eqn:Hk. revert l Hk.
  induction k as [k IH] using lt_wf_ind. intros l Hk.
  destruct l as [|x l]; [assumption|]. apply H; [discriminate|].
  eapply IH; [|reflexivity]. subst k. rewrite skipn_length. cbn [length]. lia.
Qed.
Lemma concat_chunks {A} n (l : list A) : (0 < n)%nat -> concat (chunks n l) = l.
Proof.
  intros Hn. induction l as [|l Hl IH] using (chunks_ind n Hn); auto.
  rewrite chunks_cons by assumption. cbn. rewrite IH. apply firstn_skipn.
Qed.
Lemma chunks_length_le {A} n (l : list A) : (0 < n)%nat -> Forall (fun c => (0 < length c <= n)%nat) (chunks n l).
Proof.
  intros Hn. induction l as [|l Hl IH] using (chunks_ind n Hn); auto.
  - constructor.
  - rewrite chunks_cons by assumption. constructor; auto.
    rewrite firstn_length. destruct l; [congruence|]. cbn [length]. lia.
Qed.
Lemma chunks_count {A} n (l : list A) : (0 < n)%nat ->
  length (chunks n l) = ((length l + n - 1) / n)%nat.
Proof.
  intros Hn. induction l as [|l Hl IH] using (chunks_ind n Hn); auto.
  - cbn. rewrite Nat.div_small by lia. reflexivity.
  - rewrite chunks_cons by assumption. cbn [length]. rewrite IH, skipn_length.
    assert (0 < length l)%nat by (destruct l; [congruence|cbn; lia]).
    destruct (Nat.le_gt_cases n (length l)).
    + replace (length l + n - 1)%nat with ((length l - n + n - 1) + 1 * n)%nat by lia.
      rewrite Nat.div_add by lia. lia.
    + replace (length l - n + n - 1)%nat with (n - 1)%nat by lia.
      rewrite Nat.div_small by lia.
      replace (length l + n - 1)%nat with ((length l - 1) + 1 * n)%nat by lia.
      rewrite Nat.div_add by lia. rewrite Nat.div_small by lia. reflexivity.
Qed.
(** All chunks are full when the length is a multiple. *)
Lemma chunks_full {A} n k (l : list A) : (0 < n)%nat -> length l = (k * n)%nat ->
  Forall (fun c => length c = n) (chunks n l) /\ length (chunks n l) = k.
Proof.
  intros Hn. revert l; induction k as [|k IH]; intros l Hl.
  - destruct l; [|discriminate]. split; [constructor|reflexivity].
  - rewrite chunks_cons; [|assumption|destruct l; [cbn in Hl; lia | discriminate]].
    destruct (IH (skipn n l)) as [H1 H2].
    { rewrite skipn_length. lia. }
    split; [constructor|cbn [length]; lia]; auto.
    rewrite firstn_length. lia.
Qed.
Lemma chunks_app_full {A} n k (l m : list A) : (0 < n)%nat -> length l = (k * n)%nat ->
  chunks n (l ++ m) = chunks n l ++ chunks n m.
Proof.
  intros Hn. revert l; induction k as [|k IH]; intros l Hl.
  - destruct l; [|discriminate]. reflexivity.
  - assert (l <> []) by (destruct l; [cbn in Hl; lia | discriminate]).
    rewrite (chunks_cons n l) by assumption.
    rewrite <- (firstn_skipn n l) at 1. rewrite <- app_assoc.
    rewrite chunks_app; [|assumption|rewrite firstn_length; lia].
    cbn. f_equal. apply IH. rewrite skipn_length. lia.
Qed.
Lemma chunks_map {A B} (f : A -> B) n l : (0 < n)%nat -> chunks n (map f l) = map (map f) (chunks n l).
Proof.
  intros Hn. induction l as [|l Hl IH] using (chunks_ind n Hn); auto.
  rewrite (chunks_cons n l) by assumption.
  rewrite chunks_cons; [|assumption|destruct l; [congruence|discriminate]].
  cbn. rewrite firstn_map, skipn_map, IH. reflexivity.
Qed.
Lemma chunks_bytes n l : (0 < n)%nat -> bytes l -> Forall bytes (chunks n l).
Proof.
  intros Hn H. rewrite <- (concat_chunks n l Hn) in H.
  apply Forall_forall. intros c Hc. unfold bytes in *. rewrite Forall_forall in *.
  intros x Hx. apply H. apply in_concat. eauto.
Qed.

(** ** slices *)
Lemma write_slice_ok {A} (dst : list A) off src : (off + length src <= length dst)%nat ->
  write_slice dst off src = Ok (firstn off dst ++ src ++ skipn (off + length src) dst).
Proof. intros H. unfold write_slice. apply Nat.leb_le in H. now rewrite H. Qed.
Lemma write_slice_all {A} (dst src : list A) : length src = length dst -> write_slice dst 0 src = Ok src.
Proof.
  intros H. rewrite write_slice_ok by (cbn; lia). cbn [firstn app Nat.add].
  rewrite skipn_all2 by lia. now rewrite app_nil_r.
Qed.
Lemma slice_ok {A} (l : list A) a b : (a <= b)%nat -> (b <= length l)%nat ->
  slice l a b = Ok (firstn (b - a) (skipn a l)).
Proof. intros H1 H2. unfold slice. apply Nat.leb_le in H1, H2. now rewrite H1, H2. Qed.
Lemma slice_0 {A} (l : list A) b : (b <= length l)%nat -> slice l 0 b = Ok (firstn b l).
Proof. intros H. rewrite slice_ok by lia. cbn [skipn]. now rewrite Nat.sub_0_r. Qed.

Lemma nth_ext_Z (l m : list Z) : length l = length m -> (forall i, (i < length l)%nat -> get l i = get m i) -> l = m.
Proof. intros H1 H2. apply (nth_ext _ _ 0 0); auto. Qed.

Lemma firstn_repeat {A} (x : A) n m : firstn n (repeat x m) = repeat x (Nat.min n m).
Proof. revert m; induction n as [|n IH]; intros [|m]; cbn; auto. f_equal; apply IH. Qed.
Lemma skipn_repeat {A} (x : A) n m : skipn n (repeat x m) = repeat x (m - n).
Proof. revert m; induction n as [|n IH]; intros [|m]; cbn; auto. Qed.
Lemma skipn_skipn' {A} n m (l : list A) : skipn n (skipn m l) = skipn (m + n) l.
Proof.
  revert l; induction m as [|m IH]; intros l; [reflexivity|].
  destruct l; [now rewrite !skipn_nil|]. cbn [skipn Nat.add]. apply IH.
Qed.
