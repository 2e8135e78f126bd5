(** Fermat's little theorem and Pocklington's criterion. *)
From Verif Require Import BaseFacts P_Slp.
From Coq Require Import Znumtheory Permutation.

Lemma eqm_divide m a b : eqm m a b <-> (m | a - b).
Proof.
  split; intros [k H].
  - exists k. lia.
  - exists k. lia.
Qed.
Lemma eqm_pow m a b n : 0 <= n -> eqm m a b -> eqm m (a ^ n) (b ^ n).
Proof.
  intros Hn H. revert n Hn. apply (natlike_ind (fun n => eqm m (a ^ n) (b ^ n))).
  - apply eqm_refl.
  - intros n Hn IH. rewrite !Z.pow_succ_r by lia. now apply eqm_mul.
Qed.
Lemma eqm_weaken m l a b : (l | m) -> eqm m a b -> eqm l a b.
Proof. intros [c ->] [k ->]. exists (k * c). ring. Qed.

Definition zprod (l : list Z) : Z := fold_right Z.mul 1 l.
Lemma zprod_perm l m : Permutation l m -> zprod l = zprod m.
Proof. induction 1; cbn [zprod fold_right] in *; fold zprod in *; unfold zprod in *; try lia. Qed.

Lemma flt l a : prime l -> ~ (l | a) -> eqm l (a ^ (l - 1)) 1.
Proof.
  intros Hl Ha. pose proof (prime_ge_2 l Hl) as H2.
  set (S := map Z.of_nat (seq 1 (Z.to_nat (l - 1)))).
  set (T := map (fun x => (a * x) mod l) S).
  assert (HS : forall x, In x S <-> 1 <= x < l).
  { intros x. unfold S. rewrite in_map_iff. split.
    - intros (n & <- & Hn). apply in_seq in Hn. lia.
    - intros H. exists (Z.to_nat x). split; [lia|]. apply in_seq. lia. }
  assert (NS : NoDup S).
  { unfold S. apply FinFun.Injective_map_NoDup; [|apply seq_NoDup]. intros x y. lia. }
  assert (ND : forall x, 1 <= x < l -> ~ (l | x)).
  { intros x Hx D. apply Z.divide_pos_le in D; lia. }
  assert (NT : NoDup T).
  { unfold T. assert (G : forall L, (forall x, In x L -> In x S) -> NoDup L -> NoDup (map (fun x => (a * x) mod l) L)).
    - induction L as [|x L IH]; intros Hin HL; cbn [map]; [constructor|]. inversion HL as [|? ? Hx HL']; subst.
      constructor; [|apply IH; [intros; apply Hin; now right|exact HL'] ].
      intros C. apply in_map_iff in C as (y & E & Hy).
      assert (D : (l | a * (y - x))).
      { rewrite Z.mul_sub_distr_l. apply Z.mod_divide; [lia|]. rewrite Zminus_mod, E, Z.sub_diag. apply Z.mod_0_l. lia. }
      apply prime_mult in D; [|exact Hl]. destruct D as [D|D]; [contradiction|].
      assert (1 <= x < l) by (apply HS, Hin; now left). assert (1 <= y < l) by (apply HS, Hin; now right).
      destruct (Z.lt_trichotomy x y) as [L1|[->|L1] ].
      + apply (ND (y - x)); [lia|exact D].
      + contradiction.
      + apply (ND (x - y)); [lia|]. apply Z.divide_opp_r in D. now replace (- (y - x)) with (x - y) in D by lia.
    - apply G; auto. }
  assert (P : Permutation T S).
  { apply NoDup_Permutation_bis; [exact NT| |].
    - unfold T. rewrite map_length. lia.
    - intros x Hx. unfold T in Hx. apply in_map_iff in Hx as (y & <- & Hy). apply HS in Hy. apply HS.
      pose proof (Z.mod_pos_bound (a * y) l ltac:(lia)).
      assert ((a * y) mod l <> 0); [|lia]. intros C. apply Z.mod_divide in C; [|lia].
      apply prime_mult in C; [|exact Hl]. destruct C; [contradiction|]. now apply (ND y). }
  apply zprod_perm in P.
  assert (E : forall L, eqm l (zprod (map (fun x => (a * x) mod l) L)) (a ^ Z.of_nat (length L) * zprod L)).
  { induction L as [|x L IH]; cbn [map zprod fold_right length]; [apply eqm_refl|].
    rewrite Nat2Z.inj_succ, Z.pow_succ_r by lia. fold (zprod L). fold (zprod (map (fun x => (a * x) mod l) L)).
    apply eqm_trans with (b := (a * x) * (a ^ Z.of_nat (length L) * zprod L)).
    - apply eqm_mul; [|exact IH]. apply (eqm_mod l); [lia|]. apply Z.mod_mod. lia.
    - exists 0. ring. }
  specialize (E S). fold T in E. rewrite P in E.
  assert (LS : Z.of_nat (length S) = l - 1) by (unfold S; rewrite map_length, seq_length; lia).
  rewrite LS in E. apply eqm_divide in E.
  replace (zprod S - a ^ (l - 1) * zprod S) with (zprod S * (1 - a ^ (l - 1))) in E by ring.
  apply prime_mult in E; [|exact Hl]. destruct E as [E|E].
  - exfalso. clear - E HS ND Hl H2.
    assert (G : forall L, (forall x, In x L -> In x S) -> ~ (l | zprod L)).
    { induction L as [|x L IH]; intros Hin; cbn [zprod fold_right].
      - intros D. apply Z.divide_pos_le in D; lia.
      - intros D. apply prime_mult in D; [|exact Hl]. destruct D as [D|D].
        + apply (ND x); [apply HS, Hin; now left|exact D].
        + apply IH; [intros; apply Hin; now right|exact D]. }
    apply (G S); auto.
  - apply eqm_sym, eqm_divide, E.
Qed.

Lemma prime_divisor n : 1 < n -> exists l, prime l /\ (l | n).
Proof.
  intros Hn. assert (H0 : 0 <= n) by lia. revert Hn. pattern n.
  apply Z_lt_induction; [|exact H0]. clear n H0. intros n IH Hn.
  destruct (prime_dec n) as [P|P]; [exists n; split; [exact P|apply Z.divide_refl]|].
  destruct (not_prime_divide n Hn P) as (m & Hm & D).
  destruct (IH m ltac:(lia) ltac:(lia)) as (l & Hl & D'). exists l. split; [exact Hl|]. now apply Z.divide_trans with m.
Qed.

Lemma prime_sqrt n : 1 < n -> (forall l, prime l -> (l | n) -> n < l * l) -> prime n.
Proof.
  intros Hn H. destruct (prime_dec n) as [P|P]; [exact P|exfalso].
  destruct (not_prime_divide n Hn P) as (m & Hm & [k E]).
  assert (Hk : 1 < k) by nia.
  destruct (prime_divisor m ltac:(lia)) as (l & Hl & Dl). destruct (prime_divisor k Hk) as (j & Hj & Dj).
  assert (l <= m) by (apply Z.divide_pos_le; [lia|exact Dl]). assert (j <= k) by (apply Z.divide_pos_le; [lia|exact Dj]).
  pose proof (prime_ge_2 l Hl). pose proof (prime_ge_2 j Hj).
  assert (n < l * l) by (apply H; [exact Hl|]; apply Z.divide_trans with m; [exact Dl|exists k; lia]).
  assert (n < j * j) by (apply H; [exact Hj|]; apply Z.divide_trans with k; [exact Dj|exists m; lia]).
  assert (l * l <= m * m) by (apply Z.mul_le_mono_nonneg; lia).
  assert (j * j <= k * k) by (apply Z.mul_le_mono_nonneg; lia).
  destruct (Z.le_ge_cases m k).
  - assert (m * m <= k * m) by (apply Z.mul_le_mono_nonneg_r; lia). lia.
  - assert (k * k <= k * m) by (apply Z.mul_le_mono_nonneg_l; lia). lia.
Qed.

Lemma order_divides l q b : prime l -> prime q -> eqm l (b ^ q) 1 -> ~ eqm l b 1 -> (q | l - 1).
Proof.
  intros Hl Hq Hb N. pose proof (prime_ge_2 l Hl). pose proof (prime_ge_2 q Hq).
  destruct (Zdivide_dec q (l - 1)) as [D|D]; [exact D|exfalso].
  assert (R : rel_prime q (l - 1)) by now apply prime_rel_prime.
  destruct (rel_prime_bezout _ _ R) as [u v E].
  assert (Ndb : ~ (l | b)).
  { intros Db. apply eqm_divide in Hb.
    assert (l | b ^ q) by (replace q with (Z.succ (q - 1)) by lia; rewrite Z.pow_succ_r by lia; now apply Z.divide_mul_l).
    assert (D1 : (l | 1)) by (replace 1 with (b ^ q - (b ^ q - 1)) by ring; now apply Z.divide_sub_r).
    apply Z.divide_pos_le in D1; lia. }
  pose proof (flt l b Hl Ndb) as F.
  set (w := u mod (l - 1) + (l - 1)).
  assert (Hw : 1 <= w) by (pose proof (Z.mod_pos_bound u (l - 1) ltac:(lia)); unfold w; lia).
  assert (Ew : exists t, w * q = 1 + t * (l - 1)).
  { exists (q - q * (u / (l - 1)) - v). unfold w. pose proof (Z.div_mod u (l - 1) ltac:(lia)). nia. }
  destruct Ew as [t Et]. assert (0 <= t) by nia.
  apply N.
  assert (A : eqm l (b ^ (w * q)) 1).
  { rewrite Z.mul_comm, Z.pow_mul_r by lia. apply eqm_trans with (b := 1 ^ w); [apply eqm_pow; [lia|exact Hb]|rewrite Z.pow_1_l by lia; apply eqm_refl]. }
  rewrite Et in A. rewrite Z.pow_add_r in A by nia. rewrite Z.pow_1_r in A.
  assert (B : eqm l (b ^ (t * (l - 1))) 1).
  { rewrite Z.mul_comm, Z.pow_mul_r by lia. apply eqm_trans with (b := 1 ^ t); [apply eqm_pow; [lia|exact F]|rewrite Z.pow_1_l by lia; apply eqm_refl]. }
  apply eqm_trans with (b := b * b ^ (t * (l - 1))).
  - replace b with (b * 1) at 1 by ring. apply eqm_mul; [apply eqm_refl|now apply eqm_sym].
  - exact A.
Qed.

Lemma zprod_divides qs m : NoDup qs -> (forall q, In q qs -> prime q) -> (forall q, In q qs -> (q | m)) -> (zprod qs | m).
Proof.
  intros ND HP HD. induction ND as [|q qs Hq ND IH]; cbn [zprod fold_right]; [apply Z.divide_1_l|].
  fold (zprod qs). destruct (HD q (or_introl eq_refl)) as [c E].
  assert (R : rel_prime (zprod qs) q).
  { clear - ND HP Hq. induction qs as [|r qs IH]; cbn [zprod fold_right]; [apply rel_prime_1|].
    apply rel_prime_sym, rel_prime_mult; apply rel_prime_sym.
    - apply rel_prime_sym, prime_rel_prime; [apply HP; now left|]. intros D.
      apply prime_div_prime in D; [|apply HP; now left|apply HP; right; now left].
      subst. apply Hq. now left.
    - assert (ND' : NoDup qs) by now inversion ND.
      assert (Hq' : ~ In q qs) by (intros C; apply Hq; now right).
      assert (HP' : forall x, In x (q :: qs) -> prime x).
      { intros x [<-|Hx]; apply HP; [now left|now right; right]. }
      auto. }
  assert (D : (zprod qs | m)) by (apply IH; intros; [apply HP|apply HD]; now right).
  rewrite E in D. rewrite Z.mul_comm in D. apply Gauss in D; [|exact R]. destruct D as [k ->].
  exists k. rewrite E. ring.
Qed.

Theorem pocklington n a qs : 1 < n -> NoDup qs -> (forall q, In q qs -> prime q) ->
  (zprod qs | n - 1) -> n < zprod qs * zprod qs -> eqm n (a ^ (n - 1)) 1 ->
  (forall q, In q qs -> exists c, eqm n ((a ^ ((n - 1) / q) - 1) * c) 1) -> prime n.
Proof.
  intros Hn ND HP HD HR HA HC. apply prime_sqrt; [exact Hn|]. intros l Hl Dl.
  pose proof (prime_ge_2 l Hl).
  assert (D : (zprod qs | l - 1)).
  { apply zprod_divides; auto. intros q Hq. apply (order_divides l q (a ^ ((n - 1) / q)) Hl (HP q Hq)).
    - assert (Dq : (q | n - 1)).
      { apply Z.divide_trans with (zprod qs); [|exact HD]. clear - Hq. induction qs as [|r qs IH]; [destruct Hq|].
        cbn [zprod fold_right]. fold (zprod qs). destruct Hq as [->|Hq]; [apply Z.divide_factor_l|].
        apply Z.divide_mul_r. auto. }
      pose proof (prime_ge_2 q (HP q Hq)).
      rewrite <- Z.pow_mul_r by (try apply Z.div_pos; lia).
      replace ((n - 1) / q * q) with (n - 1).
      + eapply eqm_weaken; [exact Dl|exact HA].
      + destruct Dq as [k E]. rewrite E, Z.div_mul by lia. reflexivity.
    - intros E. destruct (HC q Hq) as [c Hc]. apply (eqm_weaken n l _ _ Dl) in Hc.
      assert (Z0 : eqm l 0 1).
      { eapply eqm_trans; [|exact Hc]. replace 0 with (0 * c) by ring. apply eqm_mul; [|apply eqm_refl].
        replace 0 with (1 - 1) by ring. apply eqm_sub; [now apply eqm_sym|apply eqm_refl]. }
      assert (D1 : (l | 1)) by (destruct Z0 as [k E1]; exists (- k); lia).
      apply Z.divide_pos_le in D1; lia. }
  apply Z.divide_pos_le in D; [|lia].
  assert (P0 : 0 <= zprod qs).
  { clear - HP. induction qs as [|q qs IH]; cbn [zprod fold_right]; [lia|].
    pose proof (prime_ge_2 q (HP q (or_introl eq_refl))). fold (zprod qs).
    assert (0 <= zprod qs) by (apply IH; intros; apply HP; now right). nia. }
  assert (zprod qs * zprod qs <= l * l) by (apply Z.mul_le_mono_nonneg; lia). lia.
Qed.

(** ** Powers with quotient hints: every result is congruent to the power, whatever the hints. *)
Fixpoint pmh (n a : Z) (e : positive) (hs : list Z) : Z * list Z :=
  match e with
  | xH => (a, hs)
  | xO e' => let (r, hs1) := pmh n a e' hs in
             match hs1 with q :: hs2 => (r * r - q * n, hs2) | [] => (r * r, []) end
  | xI e' => let (r, hs1) := pmh n a e' hs in
             match hs1 with
             | q :: q' :: hs2 => (a * (r * r - q * n) - q' * n, hs2)
             | _ => (a * (r * r), [])
             end
  end.
Lemma pmh_ok n a e : forall hs, eqm n (fst (pmh n a e hs)) (a ^ Zpos e).
Proof.
  assert (S : forall r q, eqm n (r - q * n) r) by (intros r q; exists (- q); ring).
  induction e as [e IH|e IH|]; intros hs; cbn [pmh].
  - specialize (IH hs). destruct (pmh n a e hs) as [r hs1]. cbn [fst] in IH.
    assert (E : eqm n (a * (r * r)) (a ^ Zpos e~1)).
    { replace (Zpos e~1) with (1 + (Zpos e + Zpos e)) by lia. rewrite !Z.pow_add_r, Z.pow_1_r by lia.
      apply eqm_mul; [apply eqm_refl|]. now apply eqm_mul. }
    destruct hs1 as [|q [|q' hs2] ]; cbn [fst]; try exact E.
    eapply eqm_trans; [apply S|]. eapply eqm_trans; [|exact E]. apply eqm_mul; [apply eqm_refl|apply S].
  - specialize (IH hs). destruct (pmh n a e hs) as [r hs1]. cbn [fst] in IH.
    assert (E : eqm n (r * r) (a ^ Zpos e~0)).
    { replace (Zpos e~0) with (Zpos e + Zpos e) by lia. rewrite !Z.pow_add_r by lia. now apply eqm_mul. }
    destruct hs1 as [|q hs2]; cbn [fst]; [exact E|]. eapply eqm_trans; [apply S|exact E].
  - cbn [fst]. rewrite Z.pow_1_r. apply eqm_refl.
Qed.

(** Trial division for small primes. *)
Fixpoint trial (fuel : nat) (d n : Z) : bool :=
  match fuel with
  | O => false
  | S f => if n <? d * d then true else if n mod d =? 0 then false else trial f (d + 1) n
  end.
Lemma trial_ok fuel : forall d n, 1 < d -> (forall x, 1 < x < d -> ~ (x | n)) -> 1 < n -> trial fuel d n = true -> prime n.
Proof.
  induction fuel as [|f IH]; intros d n Hd H Hn T; cbn [trial] in T; [discriminate|].
  destruct (Z.ltb_spec n (d * d)) as [L|L].
  - apply prime_sqrt; [exact Hn|]. intros l Hl D. pose proof (prime_ge_2 l Hl).
    destruct (Z.lt_ge_cases l d); [exfalso; apply (H l); [lia|exact D]|]. nia.
  - destruct (Z.eqb_spec (n mod d) 0) as [E|E]; [discriminate|].
    refine (IH (d + 1) n _ _ Hn T); [lia|]. intros x Hx D.
    destruct (Z.eq_dec x d) as [->|]; [|apply (H x); [lia|exact D] ].
    apply E. apply Z.mod_divide; [lia|exact D].
Qed.
Lemma trial_prime fuel n : 1 < n -> trial fuel 2 n = true -> prime n.
Proof. intros Hn. apply trial_ok; try lia. Qed.
