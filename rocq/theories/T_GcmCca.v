(** C99: left-or-right with decryption against GCM with a random permutation, and against AES-GCM. *)
From Coq Require Import ZArith List Lia.
From Verif Require Import Base M_Aes M_Gcm S_Gcm S_Aes T_Gcm T_Forge T_GcmPrivacy S_GcmPrp S_GcmAuth T_GcmPrp T_GcmAes S_GcmCca.
From Verif Require S_GcmGame S_GcmWin P_GcmExt P_GcmForge P_GcmGame P_GcmPrp P_GcmWin P_GcmCca P_Switch T_GcmGame T_Aes BaseFacts.
From mathcomp Require Import all_ssreflect all_fingroup all_algebra.
Import ListNotations.
Import Order.TTheory GRing.Theory Num.Theory.

(** The fraction of all permutations of the blocks for which the distinguisher [D], given the [n] events of [P]'s game with the left
    (right) messages, says yes. *)
Definition pr_says (b : build) (left : bool) (P : adversary) (D : list event -> bool) (n : nat) : rat :=
  (#|[set g : {perm block} | D (lr_play b (as_cipher g) left P n)]|%:R / #|{perm block}|%:R)%R.

Section Bij.
Variables (b : build) (n m : nat) (B : Z) (P : adversary).
Hypothesis HP : adversary_ok b n m B P.
Definition T (l : bool) (g : {ffun block -> block}) : {ffun block -> block} :=
  [ffun x => block_of (P_GcmCca.moved b n P (as_cipher g) l (bytes_of x))].
Lemma T_cipher l g x : is_block x -> as_cipher (T l g) x = P_GcmCca.moved b n P (as_cipher g) l x.
Proof.
  move=> Hx. rewrite {1}/as_cipher /T ffunE (P_GcmPrp.bytes_of_K Hx). apply: P_GcmPrp.bytes_of_K.
  exact: (P_GcmCca.moved_block b n m B P HP _ l (@P_GcmPrp.as_cipher_block g) x Hx).
Qed.
Lemma T_sim l g i : (i <= n)%coq_nat ->
  P_GcmGame.sim b (as_cipher (T l g)) (P_GcmCca.proj (negb l) P) i = P_GcmGame.sim b (as_cipher g) (P_GcmCca.proj l P) i.
Proof.
  move=> Hi. case: (Nat.eq_dec n 0) => [N0|Np]; first by have -> : i = 0%N by [lia|].
  have Hz : (0 < n)%coq_nat by lia. have Hg := @P_GcmPrp.as_cipher_block g.
  rewrite (P_GcmGame.sim_ext b n m B _ (P_GcmCca.proj_ok (negb l) b n m B P HP) 0%N Hz (P_GcmCca.moved b n P (as_cipher g) l)).
  - exact: (P_GcmCca.moved_sim b n m B P HP _ l Hg).
  - exact: (P_GcmCca.moved_block b n m B P HP _ l Hg).
  - exact: P_GcmPrp.as_cipher_block.
  - move=> x Hx. exact: T_cipher.
  - exact: Hi.
Qed.
Lemma T_T l g : T (negb l) (T l g) = g.
Proof.
  apply/ffunP => x. apply: P_GcmPrp.bytes_of_inj. have Bx := P_GcmPrp.bytes_of_block x.
  have K : forall k : {ffun block -> block}, bytes_of (k x) = as_cipher k (bytes_of x) by move=> k; rewrite /as_cipher P_GcmPrp.block_of_K.
  rewrite !K. have Hg := @P_GcmPrp.as_cipher_block g. rewrite (T_cipher (negb l) (T l g) _ Bx).
  rewrite -[RHS](P_GcmCca.moved_twice b n m B P HP _ l _ Hg Bx).
  rewrite /P_GcmCca.moved. have -> : P_GcmCca.lrs b P (as_cipher (T l g)) (negb l) n = P_GcmCca.lrs b P (P_GcmCca.moved b n P (as_cipher g) l) (negb l) n.
  { rewrite (P_GcmCca.moved_lrs b n m B P HP _ l Hg) /P_GcmCca.lrs !flat_map_concat_map. congr List.concat. apply: map_ext_in => i /in_seq Hi.
    rewrite /P_GcmCca.lr_at T_sim; [by []|lia]. }
  rewrite {1 3}/shift. by rewrite (T_cipher l g _ Bx).
Qed.
Definition sees (l : bool) (g : {ffun block -> block}) : list event := List.map P_GcmCca.cev (P_GcmGame.sim b (as_cipher g) (P_GcmCca.proj l P) n).
Lemma same_yes D l : (#|[set g | D (sees l g)]| <= #|[set g | D (sees (negb l) g)]|)%N.
Proof.
  have TI : injective (T l) by apply: (can_inj (g := T (negb l))) => g; exact: T_T.
  rewrite -(card_imset _ TI). apply: subset_leq_card. apply/subsetP => g' /imsetP [g]. rewrite inE => Dg ->. rewrite inE /sees T_sim; [exact: Dg|exact: le_n].
Qed.
End Bij.

(** One side: the permutation game is near the game with functions in which nothing is accepted. *)
Lemma one_side b P D n m B s l : adversary_ok b n m (Z.of_nat B) P -> (forall tr, length tr = n -> (blocks_asked P tr n <= s)%coq_nat) ->
  (`| pr_says b l P D n - #|[set g | D (sees b n P l g)]|%:R / #|{ffun block -> block}|%:R | <= ((m * B)%N%:R + (\sum_(j < s) j)%N%:R) / 2%:R ^+ 128)%R.
Proof.
  move=> HP Hs. have HQ := P_GcmCca.proj_ok l b n m _ P HP. set Q := P_GcmCca.proj l P in HQ.
  have Hs' : forall tr, length tr = n -> (S_GcmGame.blocks_asked Q tr n <= s)%nat.
  { move=> tr Ht. apply/ssrnat.leP. rewrite /Q (P_GcmCca.proj_asked l b n m _ P HP tr Ht n (le_n n)). apply: Hs. by rewrite List.map_length. }
  have Ew := P_GcmPrp.card_block. set w := (2%:R ^+ 128)%R in Ew *. clearbody w.
  have N0 : (0 < w)%R by rewrite -Ew ltr0n; exact: (P_GcmForge.type_gt0 (block_of nil)).
  have F0 : (0 < #|{ffun block -> block}|%:R :> rat)%R by rewrite ltr0n; exact: P_GcmForge.ffun_gt0.
  have P0 : (0 < #|{perm block}|%:R :> rat)%R by rewrite ltr0n; exact: P_GcmForge.perm_gt0.
  have AB := P_GcmWin.any_bound HQ.
  pose K1 (tr : list S_GcmGame.event) acc := D (List.map P_GcmCca.cev tr) || acc.
  pose K2 (tr : list S_GcmGame.event) acc := D (List.map P_GcmCca.cev tr) && ~~ acc.
  have S1 := P_Switch.switching (@P_GcmWin.depth_whole b n Q K1 s Hs'). have S2 := P_Switch.switching (@P_GcmWin.depth_whole b n Q K2 s Hs').
  rewrite Ew in S1 S2.
  have E1 : #|[set g : {ffun block -> block} | P_Switch.eval (P_GcmWin.whole b n Q K1) g]| = #|[set g | D (sees b n P l g)] :|: [set g : {ffun block -> block} | P_GcmWin.any b n Q (as_cipher g)]|.
  { apply: eq_card => g. rewrite !inE (P_GcmWin.eval_whole HQ). by []. }
  have E2 : #|[set g : {ffun block -> block} | P_Switch.eval (P_GcmWin.whole b n Q K2) g]| = #|[set g | D (sees b n P l g)] :\: [set g : {ffun block -> block} | P_GcmWin.any b n Q (as_cipher g)]|.
  { apply: eq_card => g. rewrite !inE (P_GcmWin.eval_whole HQ) /K2 andbC. by []. }
  have X1 : (#|[set g : {perm block} | D (lr_play b (as_cipher g) l P n)]| <= #|[set g : {perm block} | P_Switch.eval (P_GcmWin.whole b n Q K1) g]|)%N.
  { apply: subset_leq_card. apply/subsetP => g. rewrite !inE (P_GcmWin.eval_whole HQ) /K1 => H. have Hg := @P_GcmPrp.as_cipher_block g.
    case: (P_GcmCca.play_sim b (as_cipher g) l P n) => Hw.
    - by rewrite (P_GcmWin.won_any HQ Hg Hw) orbT.
    - rewrite Hw in H. by rewrite H. }
  have X2 : (#|[set g : {perm block} | P_Switch.eval (P_GcmWin.whole b n Q K2) g]| <= #|[set g : {perm block} | D (lr_play b (as_cipher g) l P n)]|)%N.
  { apply: subset_leq_card. apply/subsetP => g. rewrite !inE (P_GcmWin.eval_whole HQ) /K2 => /andP [H Na]. have Hg := @P_GcmPrp.as_cipher_block g.
    case: (P_GcmCca.play_sim b (as_cipher g) l P n) => Hw.
    - by rewrite (P_GcmWin.won_any HQ Hg Hw) in Na.
    - by rewrite Hw. }
  rewrite E1 in S1. rewrite E2 in S2. rewrite /pr_says. clear Hs Hs'.
  set y := [set g | D (sees b n P l g)] in S1 S2 *. set a := [set g : {ffun block -> block} | _] in AB S1 S2.
  have Y1 : (#|y :|: a| <= #|y| + #|a|)%N by apply: leq_trans (leq_card_setU y a) _; exact: leqnn. have Y2 : (#|y| <= #|y :\: a| + #|a|)%N.
  { rewrite -(cardsID a y) addnC leq_add2l. apply: subset_leq_card. exact: subsetIr. }
  have A0 : (#|a|%:R / #|{ffun block -> block}|%:R <= (m * B)%N%:R / w :> rat)%R.
  { rewrite (ler_pdivr_mulr _ _ F0) mulrAC (ler_pdivl_mulr _ _ N0) -Ew -!natrM ler_nat. exact: AB. }
  move: X1 X2 S1 S2 A0 Y1 Y2. move: #|[set g : {perm block} | D _]| #|[set g : {perm block} | P_Switch.eval (P_GcmWin.whole b n Q K1) g]| #|[set g : {perm block} | P_Switch.eval (P_GcmWin.whole b n Q K2) g]| => c c1 c2.
  move: #|y| #|a| #|y :|: a| #|y :\: a| => cy ca cu cd. clearbody y a. clear AB E1 E2.
  move: N0 F0 P0. clear Ew. move: (#|{ffun block -> block}|%:R)%R (#|{perm block}|%:R)%R => F p. move: ((m * B)%N%:R)%R => mb. move: ((\sum_(j < s) j)%N%:R)%R => e.
  move=> N0 F0 P0 X1 X2 S1 S2 A0 Y1 Y2. have Fi : (0 < F^-1)%R by rewrite invr_gt0. have Pi : (0 < p^-1)%R by rewrite invr_gt0.
  have {}X1 : (c%:R / p <= c1%:R / p)%R by rewrite (ler_pmul2r Pi) ler_nat.
  have {}X2 : (c2%:R / p <= c%:R / p)%R by rewrite (ler_pmul2r Pi) ler_nat.
  have {}Y1 : (cu%:R / F <= cy%:R / F + ca%:R / F)%R by rewrite -mulrDl (ler_pmul2r Fi) -natrD ler_nat.
  have {}Y2 : (cy%:R / F <= cd%:R / F + ca%:R / F)%R by rewrite -mulrDl (ler_pmul2r Fi) -natrD ler_nat.
  have {}S1 := le_trans (ler_norm _) S1. have {}S2 : (cd%:R / F - c2%:R / p <= e / w)%R by apply: le_trans S2; rewrite distrC; exact: ler_norm.
  rewrite mulrDl. move: X1 X2 Y1 Y2 S1 S2 A0.
  move: (c%:R / p)%R (c1%:R / p)%R (c2%:R / p)%R (cu%:R / F)%R (cd%:R / F)%R (cy%:R / F)%R (ca%:R / F)%R (mb / w)%R (e / w)%R => x x1 x2 u d z t g h.
  move=> X1 X2 Y1 Y2 S1 S2 A0. rewrite ler_norml. apply/andP. split.
  - rewrite ler_oppl opprB. rewrite ler_subl_addr. apply: le_trans Y2 _. rewrite ler_subl_addr in S2. apply: le_trans (ler_add S2 A0) _.
    rewrite [(h + x2)%R]addrC addrAC -addrA [X in (_ <= X)%R]addrC. apply: ler_add; last by []. exact: X2.
  - rewrite ler_subl_addr. apply: le_trans X1 _. rewrite ler_subl_addr in S1. apply: le_trans S1 _. rewrite [(g + h)%R]addrC -addrA. apply: ler_add; first by [].
    apply: le_trans Y1 _. rewrite addrC. apply: ler_add; [exact: A0|by []].
Qed.

(** ** C99: under a uniformly random permutation, an adversary that chooses pairs of messages, never two under one nonce, and hands at
    most [m] things of its own to decryption, can tell left from right with a probability of at most (2 m B + s(s-1)) / 2^128, when at
    most [s] blocks are enciphered as long as nothing is accepted. *)
Theorem C99_cca : forall b P D n m B s, adversary_ok b n m (Z.of_nat B) P ->
  (forall tr, length tr = n -> (blocks_asked P tr n <= s)%coq_nat) ->
  (`| pr_says b true P D n - pr_says b false P D n | <= (2 * (m * B) + s * (s - 1))%N%:R / 2%:R ^+ 128)%R.
Proof.
  move=> b P D n m B s HP Hs.
  have Es : #|[set g | D (sees b n P true g)]| = #|[set g | D (sees b n P false g)]|.
  { apply/eqP. rewrite eqn_leq. by rewrite (same_yes b n m _ P HP D true) (same_yes b n m _ P HP D false). }
  have K1 := one_side b P D n m B s true HP Hs. have K2 := one_side b P D n m B s false HP Hs. rewrite Es in K1.
  clear Es. move: K1 K2. set q := (_ / #|{ffun block -> block}|%:R)%R. move: (pr_says _ true _ _ _) (pr_says _ false _ _ _) => x y. clearbody q.
  have -> : ((2 * (m * B) + s * (s - 1))%N%:R = (m * B)%N%:R + (\sum_(j < s) j)%N%:R + ((m * B)%N%:R + (\sum_(j < s) j)%N%:R) :> rat)%R.
  { rewrite -P_GcmPrp.sum_double -!natrD. congr (_%:R)%R. rewrite mul2n -!addnn. exact: addnACA. }
  rewrite [X in (_ -> _ -> _ <= X)%R]mulrDl. move: (_ / _)%R => w K1 K2.
  have -> : (x - y = (x - q) - (y - q))%R by rewrite opprB addrA subrK.
  apply: le_trans (ler_norm_sub _ _) _. exact: ler_add.
Qed.
Print Assumptions C99_cca.

(** The same game against [Gcm::<AesN>] with a key. *)
Definition aes_answer (E : BlockCipher) (b : build) (key : list Z) (left : bool) (v : move) : event :=
  match v with
  | LR nonce data ml mr =>
    let msg := if left then ml else mr in
    Sealed (bind (gcm_new E key) (fun k => gcm_encrypt E b k msg nonce data (repeat Z0 (length msg))))
  | Open a => Opened (match bind (gcm_new E key) (fun k => gcm_decrypt E b k (a_ct a) (a_nonce a) (a_data a) (a_tag a) (repeat Z0 (length (a_ct a)))) with
                      | Ok (r, true) => Some r
                      | _ => None
                      end)
  end.
Fixpoint aes_lr_play (E : BlockCipher) (b : build) (key : list Z) (left : bool) (P : adversary) (n : nat) : list event :=
  match n with
  | O => nil
  | S n => app (aes_lr_play E b key left P n) [aes_answer E b key left (P (aes_lr_play E b key left P n))]
  end.
Definition short_attempts (b : build) (n : nat) (P : adversary) : Prop :=
  forall tr a, (length tr < n)%coq_nat -> P tr = Open a -> b = Unchecked \/ Z.le (len (a_ct a)) checked_limit.
(** It is the game with the FIPS 197 cipher in place of the permutation. *)
Theorem C99_cca_experiment : forall E Nk,
  (E, Nk) = (Aes128, 4%nat) \/ (E, Nk) = (Aes192, 6%nat) \/ (E, Nk) = (Aes256, 8%nat) ->
  forall b P n m B key left, adversary_ok b n m B P -> short_attempts b n P -> length key = (4 * Nk)%coq_nat -> bytes key ->
  aes_lr_play E b key left P n = lr_play b (Cipher Nk key) left P n.
Proof.
  move=> E Nk HE b P n m B key l HP HS Lk Bk.
  have [st [E1 E2]] : exists st, bc_new E key = Ok st /\ forall x, is_block x -> bc_permute E st x = Cipher Nk key x.
  { have [|st [E1 _]] := T_Aes.C25_aes_is_fips197 E Nk HE key (repeat Z0 16) Lk Bk (repeat_length _ _);
      first by exact: (proj2 P_GcmExt.zero_block).
    exists st. split; first exact: E1. move=> x [Lx Bx]. have [st' [E1' E2]] := T_Aes.C25_aes_is_fips197 E Nk HE key x Lk Bk Lx Bx.
    move: E1'. rewrite E1 => [] [] ->. exact: E2. }
  have HB : block_fn (bc_permute E st).
  { move=> x Hx. have H27 : E = Aes128 \/ E = Aes192 \/ E = Aes256 by case: HE => [[-> _]|[[-> _]|[-> _]]]; tauto.
    exact: (proj1 (T_Aes.C27_permutation E H27 key st Bk E1) x Hx). }
  have HC : block_fn (Cipher Nk key) by move=> x Hx; rewrite -E2 //; exact: HB.
  have G : forall i, (i <= n)%coq_nat -> aes_lr_play E b key l P i = lr_play b (Cipher Nk key) l P i /\ length (aes_lr_play E b key l P i) = i.
  { elim=> [|i IH] Hi; first by []. have [Eq L] := IH ltac:(lia). cbn [aes_lr_play lr_play]. split; last by rewrite app_length L; cbn [length]; lia.
    rewrite -Eq. congr (_ ++ [_])%list. have Hi' : (length (aes_lr_play E b key l P i) < n)%coq_nat by rewrite L; lia.
    have H := proj1 HP _ Hi'. have H2 := fun a => HS _ a Hi'. move: H H2. case: (P _) => [nonce d ml mr|a] H H2.
    - move: H => [Hn [Hd [Hl [Hr _]]]]. pose msg := if l then ml else mr. pose A : attacker := fun _ => P_GcmGame.mkq nonce d msg.
      have HA : admissible 1 A.
      { move=> tr Ht. have Hm : gcm_message msg by rewrite /msg; case: (l).
        split; first exact: Hn. split; first exact: Hd. split; first exact: Hm. split; first exact: Hm. split; first exact: erefl.
        move=> j Hj. lia. }
      have X := C99_aes_experiment E Nk HE b true A key 1 HA Lk Bk. cbn [aes_lr_run lr_run app] in X. injection X as X.
      cbn [aes_answer answer]. congr Sealed. exact: X.
    - move: H => [Hn [Hd [Hc _]]]. cbn [aes_answer answer].
      have X := P_GcmCca.open_ext b (Cipher Nk key) (bc_permute E st) a HC HB E2 Hn Hd Hc (H2 a erefl) (repeat Z0 (length (a_ct a))) (repeat_length _ _).
      rewrite -X /gcm_new E1. by []. }
  by case: (G n (le_n n)).
Qed.
Print Assumptions C99_cca_experiment.

(** The fraction of all keys for which the distinguisher says yes; by the theorem above it is that of the game with the FIPS 197
    cipher.  So left and right are told apart at most as well as AES and a random permutation in the two games, plus the bound. *)
Definition aes_says (E : BlockCipher) (Nk : nat) (b : build) (left : bool) (P : adversary) (D : list event -> bool) (n : nat) : rat :=
  (#|[set k : (4 * Nk).-tuple 'I_256 | D (aes_lr_play E b (key_bytes Nk k) left P n)]|%:R / #|{: (4 * Nk).-tuple 'I_256}|%:R)%R.
Theorem C99_cca_aes : forall E Nk,
  (E, Nk) = (Aes128, 4%nat) \/ (E, Nk) = (Aes192, 6%nat) \/ (E, Nk) = (Aes256, 8%nat) ->
  forall b P D n m B s, adversary_ok b n m (Z.of_nat B) P -> short_attempts b n P ->
  (forall tr, length tr = n -> (blocks_asked P tr n <= s)%coq_nat) ->
  let r left := (#|[set k : (4 * Nk).-tuple 'I_256 | D (lr_play b (Cipher Nk (key_bytes Nk k)) left P n)]|%:R / #|{: (4 * Nk).-tuple 'I_256}|%:R)%R in
  (forall left, aes_says E Nk b left P D n = r left) /\
  (`| aes_says E Nk b true P D n - aes_says E Nk b false P D n | <=
   `| r true - pr_says b true P D n | + `| r false - pr_says b false P D n | + (2 * (m * B) + s * (s - 1))%N%:R / 2%:R ^+ 128)%R.
Proof.
  move=> E Nk HE b P D n m B s HP HS Hs r. have Er l : aes_says E Nk b l P D n = r l.
  { rewrite /aes_says /r. set S := [set k | _]. set S' := [set k | _]. have -> : S = S'; last by [].
    apply/setP => k. rewrite !inE. have [Lk Bk] := key_bytes_ok Nk k. by rewrite (C99_cca_experiment E Nk HE b P n m _ _ l HP HS Lk Bk). }
  split; first exact: Er. rewrite !Er. have H := C99_cca b P D n m B s HP Hs. clearbody r. clear Er.
  move: H. move: (_ / _)%R => w H. move: (r true) (r false) => a a'. set p := pr_says _ true _ _ _ in H *. set p' := pr_says _ false _ _ _ in H *.
  clearbody p p'. apply: le_trans (ler_add (lexx _) H).
  have -> : (a - a' = (a - p) + (p' - a') + (p - p'))%R by rewrite -addrA [X in (_ = _ + X)%R]addrC !subrKA.
  apply: le_trans (ler_norm_add _ _) _. apply: ler_add => //. rewrite [X in (_ <= _ + X)%R]distrC. exact: ler_norm_add.
Qed.
Print Assumptions C99_cca_aes.

(** An adversary that encrypts and hands in in turn, each time the last answer's tag under changed data: 20 moves, 31 blocks. *)
Definition ex_adversary : adversary := fun tr =>
  let nonce := be_encode 12 (Z.of_nat (Nat.div2 (length tr))) in
  if Nat.even (length tr) then LR nonce [Zpos 1] [Zpos 2; Zpos 3] [Zpos 4; Zpos 5]
  else match List.last tr (Opened None) with
       | Sealed (Ok (c, t)) => Open {| a_nonce := nonce; a_data := [Zpos 9]; a_ct := [Zpos 7; Zpos 7]; a_tag := t |}
       | _ => Open {| a_nonce := nonce; a_data := [Zpos 9]; a_ct := [Zpos 7; Zpos 7]; a_tag := nil |}
       end.
Lemma ex_adversary_ok b : adversary_ok b 20 20 (Z.of_nat 3) ex_adversary /\ short_attempts b 20 ex_adversary.
Proof.
  split; [split|].
  - move=> tr Ht. have Hn : gcm_nonce (be_encode 12 (Z.of_nat (Nat.div2 (length tr)))) by split; [exact: BaseFacts.be_encode_length|exact: BaseFacts.be_encode_bytes].
    have D t : ~ given ex_adversary tr {| a_nonce := be_encode 12 (Z.of_nat (Nat.div2 (length tr))); a_data := [Zpos 9]; a_ct := [Zpos 7; Zpos 7]; a_tag := t |}.
    { move=> [i [ml [mr [Hi [E _]]]]]. move: E. cbn [a_nonce a_data]. rewrite /ex_adversary. case: ifP => _; first by move=> [] _ E.
      by case: (List.last _ _) => [[[c' t']|]|]. }
    rewrite {1}/ex_adversary. case: ifP => Ev.
    + split=> //. split; first by ok_bytes. split; first by ok_bytes. split; first by ok_bytes. split; first by []. split; first by right; vm_compute. split; first by vm_compute.
      move=> i k d ml mr Hi. rewrite /ex_adversary. rewrite firstn_length Nat.min_l; last lia. case: ifP => Ei; last by case: (List.last _ _) => [[[c' t']|]|].
      move=> [] <- _ _ _ E. apply (f_equal be_decode) in E. rewrite !BaseFacts.be_decode_encode in E.
      have Di : (Nat.div2 i < Nat.div2 (length tr))%coq_nat.
      { move: Ei Ev => /Nat.even_spec [u Eu] /Nat.even_spec [v Ev]. rewrite Eu Ev !Nat.div2_double. lia. }
      rewrite !Z.mod_small in E; [lia| |]; (split; [lia|]); apply: (Z.lt_trans _ (Zpos 64)); try (by vm_compute);
        have := Nat.div2_div (length tr); have := Nat.div2_div i; have := Nat.div_le_upper_bound (length tr) 2 (length tr); have := Nat.div_le_upper_bound i 2 i; lia.
    + case: (List.last _ _) => [[[c t]|]|o]; (split=> //; split; first by ok_bytes); (split; first by ok_bytes); (split; first by vm_compute); exact: D.
  - move=> tr _. apply: Nat.le_trans (T_GcmGame.flen _ _) _. rewrite seq_length. exact: le_n.
  - move=> tr a _. rewrite /ex_adversary. case: ifP => // _. case: (List.last _ _) => [[[c t]|]|o] [] <-; by right; vm_compute.
Qed.
Lemma ex_asked tr n : length tr = n -> (blocks_asked ex_adversary tr n <= Nat.add (S n) (Nat.div2 (S n)))%coq_nat.
Proof.
  move=> L. have G : forall k, (k <= n)%coq_nat -> (blocks_asked ex_adversary tr k <= Nat.add (S k) (Nat.div2 (S k)))%coq_nat.
  { elim=> [|k IH] Hk; first by []. cbn [blocks_asked]. have {}IH := IH ltac:(lia).
    have Lf : length (firstn k tr) = k by rewrite firstn_length L; lia.
    rewrite {2}/ex_adversary Lf. case: ifP => Ev.
    - move: Ev => /Nat.even_spec [u Eu]. subst k. rewrite Nat.div2_succ_double in IH.
      have -> : S (S (Nat.mul 2 u)) = Nat.mul 2 (S u) by lia. rewrite Nat.div2_double. cbn [length Nat.add Nat.div Nat.divmod fst]. lia.
    - have X : (Nat.div2 (S k) <= Nat.div2 (S (S k)))%coq_nat by rewrite !Nat.div2_div; apply: Nat.div_le_mono; lia.
      case: (List.last _ _) => [[[c t]|]|o]; lia. }
  exact: (G n (le_n n)).
Qed.
Example C99_cca_ex b D : (`| pr_says b true ex_adversary D 20 - pr_says b false ex_adversary D 20 | <= (2 * (20 * 3) + 31 * 30)%N%:R / 2%:R ^+ 128)%R.
Proof. exact: (C99_cca b ex_adversary D 20 20 3 31 (proj1 (ex_adversary_ok b)) (fun tr H => ex_asked tr 20 H)). Qed.
