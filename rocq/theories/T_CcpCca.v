(** C95: left-or-right with decryption against ChaCha20-Poly1305. *)
From Coq Require Import ZArith List Lia.
From Verif Require Import Base M_ChaCha20 M_Poly1305 S_ChaCha T_Ccp T_Forge T_CcpPrivacy S_GcmPrp S_CcpAuth S_CcpForge S_CcpAdv S_CcpCca.
From Verif Require S_CcpGame S_CcpWin P_CcpAuth P_CcpForge P_CcpGame P_CcpWin P_CcpCca P_GcmPrp T_CcpForge T_CcpAdv T_CcpGame BaseFacts.
From mathcomp Require Import all_ssreflect all_fingroup all_algebra.
Import ListNotations.
Import Order.TTheory GRing.Theory Num.Theory.

(** The fraction of all sources of blocks for which the distinguisher [D], given the [n] events of [P]'s game with the left (right)
    messages, says yes. *)
Definition pr_says (left : bool) (P : adversary) (D : list event -> bool) (n : nat) : rat :=
  (#|[set g : {ffun block -> oblock} | D (lr_play (as_blocks g) left P n)]|%:R / #|{ffun block -> oblock}|%:R)%R.

Section Bij.
Variables (n m : nat) (B : Z) (P : adversary).
Hypothesis HP : adversary_ok n m B P.
Definition T (l : bool) (g : {ffun block -> oblock}) : {ffun block -> oblock} :=
  [ffun x => P_CcpForge.oblock_of (P_CcpCca.moved_blocks n P (as_blocks g) l (le_decode (firstn 4 (bytes_of x))) (skipn 4 (bytes_of x)))].
Lemma T_blocks l g c nonce : Z.le Z0 c /\ Z.lt c P_CcpForge.two32 -> chacha_nonce nonce ->
  as_blocks (T l g) c nonce = P_CcpCca.moved_blocks n P (as_blocks g) l c nonce.
Proof.
  move=> Hc Hn. rewrite {1}/as_blocks -/(P_CcpForge.input_of c nonce) /T ffunE P_GcmPrp.bytes_of_K; last exact: P_CcpForge.input_block.
  rewrite P_CcpForge.input_counter // P_CcpForge.input_nonce. apply: P_CcpForge.obytes_K.
  have H := P_CcpCca.moved_good n m B P HP _ l (@P_CcpForge.as_blocks_good g). exact: (H c nonce Hc Hn).
Qed.
Lemma T_sim l g i : (i <= n)%coq_nat ->
  P_CcpGame.sim (as_blocks (T l g)) (P_CcpCca.proj (negb l) P) i = P_CcpGame.sim (as_blocks g) (P_CcpCca.proj l P) i.
Proof.
  move=> Hi. case: (Nat.eq_dec n 0) => [N0|Np]; first by have -> : i = 0%N by [lia|].
  have Hz : (0 < n)%coq_nat by lia.
  rewrite (P_CcpGame.sim_ext n m B _ (P_CcpCca.proj_ok (negb l) n m B P HP) 0%N Hz (P_CcpCca.moved_blocks n P (as_blocks g) l)) //.
  - exact: (P_CcpCca.moved_sim n m B P HP _ l (@P_CcpForge.as_blocks_good g)).
  - move=> c nonce Hc Hn. exact: T_blocks.
Qed.
Lemma T_T l g : T (negb l) (T l g) = g.
Proof.
  apply: P_CcpForge.as_blocks_inj => c nonce Hc Hn. have Hg := @P_CcpForge.as_blocks_good g. rewrite T_blocks //.
  rewrite -[RHS](P_CcpCca.moved_twice n m B P HP _ l c nonce Hg Hc Hn).
  rewrite /P_CcpCca.moved_blocks. have -> : P_CcpCca.lrs P (as_blocks (T l g)) (negb l) n = P_CcpCca.lrs P (P_CcpCca.moved_blocks n P (as_blocks g) l) (negb l) n.
  { rewrite (P_CcpCca.moved_lrs n m B P HP _ l Hg) /P_CcpCca.lrs !flat_map_concat_map. congr List.concat. apply: map_ext_in => i /in_seq Hi.
    rewrite /P_CcpCca.lr_at T_sim //. lia. }
  rewrite {1 3}/shift. rewrite T_blocks //.
Qed.
Definition sees (l : bool) (g : {ffun block -> oblock}) : list event := List.map P_CcpCca.cev (P_CcpGame.sim (as_blocks g) (P_CcpCca.proj l P) n).
Lemma same_yes D l : (#|[set g | D (sees l g)]| <= #|[set g | D (sees (negb l) g)]|)%N.
Proof.
  have TI : injective (T l) by apply: (can_inj (g := T (negb l))) => g; exact: T_T.
  rewrite -(card_imset _ TI). apply: subset_leq_card. apply/subsetP => g' /imsetP [g]. rewrite inE => Dg ->. rewrite inE /sees T_sim //.
Qed.
End Bij.

(** ** C95: with random blocks, an adversary that chooses pairs of messages, never two under one nonce, and hands at most [m] things of
    its own to decryption, can tell left from right with a probability of at most 2 m B 8712 / 2^106. *)
Theorem C95_cca : forall P D n m B, adversary_ok n m (Z.of_nat B) P ->
  (`| pr_says true P D n - pr_says false P D n | <= 2%:R * ((m * B)%N%:R * 33%:R ^+ 2 / 2%:R ^+ 103))%R.
Proof.
  move=> P D n m B HP.
  pose sim l : rat := (#|[set g : {ffun block -> oblock} | D (sees n P l g)]|%:R / #|{ffun block -> oblock}|%:R)%R.
  have Es : sim true = sim false.
  { rewrite /sim. congr (_%:R / _)%R. apply/eqP. rewrite eqn_leq. by rewrite (same_yes n m _ P HP D true) (same_yes n m _ P HP D false). }
  have W l := T_CcpGame.C95_interactive (P_CcpCca.proj l P) n m B (P_CcpCca.proj_ok l n m _ P HP).
  set w := ((m * B)%N%:R * _ / _)%R in W *. clearbody w.
  have K l : (`| pr_says l P D n - sim l | <= w)%R.
  { apply: le_trans (W l). have N0 : (0 < #|{ffun block -> oblock}|%:R :> rat)%R.
    { rewrite ltr0n. apply/card_gt0P. exists [ffun=> P_CcpForge.oblock_of nil]. by []. }
    rewrite /pr_says /sim /S_CcpWin.pr_win. set p := [set g | _]. set q := [set g | D (sees _ _ _ _)]. set v := [set g | S_CcpGame.won _].
    have H1 : (#|p| <= #|q| + #|v|)%N.
    { apply: leq_trans (leq_card_setU q v). apply: subset_leq_card. apply/subsetP => g. rewrite !inE.
      case: (P_CcpCca.play_sim (as_blocks g) l P n) => [->|->]; first by rewrite orbT. move=> Hd. by rewrite /sees Hd. }
    have H2 : (#|q| <= #|p| + #|v|)%N.
    { apply: leq_trans (leq_card_setU p v). apply: subset_leq_card. apply/subsetP => g. rewrite !inE.
      case: (P_CcpCca.play_sim (as_blocks g) l P n) => [->|->]; first by rewrite orbT. move=> Hd. by rewrite -/(sees n P l g) Hd. }
    move: #|p| #|q| #|v| H1 H2 => a c e H1 H2. clearbody p q v. move: N0. move: (_%:R : rat)%R => N N0.
    rewrite -mulrBl normrM [X in (_ * X)%R]gtr0_norm ?invr_gt0 //. rewrite ler_pmul2r ?invr_gt0 //.
    rewrite ler_norml. apply/andP. split.
    - rewrite ler_subr_addr addrC ler_subl_addr -natrD ler_nat. exact: H2.
    - rewrite ler_subl_addr -natrD ler_nat addnC. exact: H1. }
  have -> : (pr_says true P D n - pr_says false P D n = (pr_says true P D n - sim true) - (pr_says false P D n - sim false))%R.
  { rewrite Es opprB addrA subrK. by []. }
  apply: le_trans (ler_norm_sub _ _) _. have -> : (2%:R * w = w + w)%R by rewrite mulr_natl mulr2n. apply: ler_add; exact: K.
Qed.
Print Assumptions C95_cca.

(** The same game against [ChaCha20Poly1305] with a key. *)
Definition ccp_reply (b : build) (key : list Z) (left : bool) (v : move) : event :=
  match v with
  | LR nonce data ml mr => let '(c, t) := ccp_answer b key nonce data (if left then ml else mr) in Sealed c t
  | Open a => Opened (match ccp_decrypt b key (a_ct a) (a_nonce a) (a_data a) (a_tag a) (List.map (fun=> Z0) (a_ct a)) with
                      | Ok (r, true) => Some r
                      | _ => None
                      end)
  end.
Fixpoint ccp_lr_play (b : build) (key : list Z) (left : bool) (P : adversary) (n : nat) : list event :=
  match n with
  | O => nil
  | S n => app (ccp_lr_play b key left P n) [ccp_reply b key left (P (ccp_lr_play b key left P n))]
  end.
Definition short_attempts (n : nat) (P : adversary) : Prop :=
  forall tr a, (length tr < n)%coq_nat -> P tr = Open a -> Z.le (len (a_ct a)) checked_limit.
(** It is the game with the key's ChaCha20 blocks. *)
Theorem C95_cca_experiment : forall b P n m B key left, adversary_ok n m B P -> short_attempts n P -> chacha_key key ->
  ccp_lr_play b key left P n = lr_play (fun c nonce => chacha20_block key c nonce) left P n.
Proof.
  move=> b P n m B key l HP HS Hk.
  have G : forall i, (i <= n)%coq_nat -> ccp_lr_play b key l P i = lr_play (fun c nonce => chacha20_block key c nonce) l P i /\ length (ccp_lr_play b key l P i) = i.
  { elim=> [|i IH] Hi; first by []. have [E L] := IH ltac:(lia). cbn [ccp_lr_play lr_play]. split; last by rewrite app_length L; cbn [length]; lia.
    rewrite -E. congr (_ ++ [_])%list. have Hi' : (length (ccp_lr_play b key l P i) < n)%coq_nat by rewrite L; lia.
    have H := proj1 HP _ Hi'. have H2 := fun a => HS _ a Hi'. move: H H2. case: (P _) => [nonce d ml mr|a] H H2.
    - move: H => [Hn [Hd [Hl [Hr [Hlim [Hlen _]]]]]]. cbn [ccp_reply answer]. rewrite /ccp_answer (encrypt_seal _ Hk) //.
      + by case: (l).
      + exact: List.map_length.
      + case: (l); first exact: Hlim. rewrite /len -Hlen. exact: Hlim.
    - move: H => [Hn [Hd [Hc _]]]. cbn [ccp_reply answer].
      rewrite (P_CcpCca.decrypt_open _ Hk b a (List.map (fun=> Z0) (a_ct a)) Hn Hd Hc (List.map_length _ _) (H2 a erefl)).
      by case: (accepted _ a). }
  by case: (G n (le_n n)).
Qed.
Print Assumptions C95_cca_experiment.

(** The fraction of all keys for which the distinguisher says yes; by the theorem above it is that of the game with ChaCha20's blocks.
    So left and right are told apart at most as well as a random key's blocks and random blocks in the two games, plus the bound. *)
Definition ccp_says (b : build) (left : bool) (P : adversary) (D : list event -> bool) (n : nat) : rat :=
  (#|[set k : ckey | D (ccp_lr_play b (ckey_bytes k) left P n)]|%:R / #|ckey|%:R)%R.
Theorem C95_cca_chacha : forall b P D n m B, adversary_ok n m (Z.of_nat B) P -> short_attempts n P ->
  let r left := (#|[set k : ckey | D (lr_play (fun c nonce => chacha20_block (ckey_bytes k) c nonce) left P n)]|%:R / #|ckey|%:R)%R in
  (forall left, ccp_says b left P D n = r left) /\
  (`| ccp_says b true P D n - ccp_says b false P D n | <=
   `| r true - pr_says true P D n | + `| r false - pr_says false P D n | + 2%:R * ((m * B)%N%:R * 33%:R ^+ 2 / 2%:R ^+ 103))%R.
Proof.
  move=> b P D n m B HP HS r. have E l : ccp_says b l P D n = r l.
  { rewrite /ccp_says /r. set S := [set k | _]. set S' := [set k | _]. have -> : S = S'; last by [].
    apply/setP => k. rewrite !inE. by rewrite (C95_cca_experiment b P n m _ _ l HP HS (T_CcpAdv.ckey_ok k)). }
  split; first exact: E. rewrite !E. have H := C95_cca P D n m B HP.
  set w := (2%:R * _)%R in H *. clearbody w. move: (r true) (r false) => a a'. set p := pr_says true _ _ _ in H *. set p' := pr_says false _ _ _ in H *.
  clearbody p p'. apply: le_trans (ler_add (lexx _) H).
  have -> : (a - a' = (a - p) + (p' - a') + (p - p'))%R by rewrite -addrA [X in (_ = _ + X)%R]addrC !subrKA.
  apply: le_trans (ler_norm_add _ _) _. apply: ler_add => //. rewrite [X in (_ <= _ + X)%R]distrC. exact: ler_norm_add.
Qed.
Print Assumptions C95_cca_chacha.

(** An adversary that encrypts and hands in in turn, each time the last answer's tag under changed data. *)
Definition ex_adversary : adversary := fun tr =>
  let nonce := be_encode 12 (Z.of_nat (Nat.div2 (length tr))) in
  if Nat.even (length tr) then LR nonce [Zpos 1] [Zpos 2; Zpos 3] [Zpos 4; Zpos 5]
  else match List.last tr (Opened None) with
       | Sealed c t => Open {| a_nonce := nonce; a_data := [Zpos 9]; a_ct := [Zpos 7; Zpos 7]; a_tag := t |}
       | Opened _ => Open {| a_nonce := nonce; a_data := [Zpos 9]; a_ct := [Zpos 7; Zpos 7]; a_tag := nil |}
       end.
Lemma ex_adversary_ok : adversary_ok 20 20 (Z.of_nat 3) ex_adversary /\ short_attempts 20 ex_adversary.
Proof.
  split; [split|].
  - move=> tr Ht. have Hn : chacha_nonce (be_encode 12 (Z.of_nat (Nat.div2 (length tr)))) by split; [exact: BaseFacts.be_encode_length|exact: BaseFacts.be_encode_bytes].
    have D t : ~ given ex_adversary tr {| a_nonce := be_encode 12 (Z.of_nat (Nat.div2 (length tr))); a_data := [Zpos 9]; a_ct := [Zpos 7; Zpos 7]; a_tag := t |}.
    { move=> [i [ml [mr [Hi [E _]]]]]. move: E. cbn [a_nonce a_data]. rewrite /ex_adversary. case: ifP => _; first by move=> [] _ E.
      case: (List.last _ _) => //. }
    rewrite {1}/ex_adversary. case: ifP => Ev.
    + split=> //. split; first by ok_bytes. split; first by ok_bytes. split; first by ok_bytes. split; first by vm_compute. split; first by []. split; first by vm_compute.
      move=> i k d ml mr Hi. rewrite /ex_adversary. rewrite firstn_length Nat.min_l; last lia. case: ifP => Ei; last by case: (List.last _ _).
      move=> [] <- _ _ _ E. apply (f_equal be_decode) in E. rewrite !BaseFacts.be_decode_encode in E.
      have Di : (Nat.div2 i < Nat.div2 (length tr))%coq_nat.
      { move: Ei Ev => /Nat.even_spec [u Eu] /Nat.even_spec [v Ev]. rewrite Eu Ev !Nat.div2_double. lia. }
      rewrite !Z.mod_small in E; [lia| |]; (split; [lia|]); apply: (Z.lt_trans _ (Zpos 64)); try (by vm_compute);
        have := Nat.div2_div (length tr); have := Nat.div2_div i; have := Nat.div_le_upper_bound (length tr) 2 (length tr); have := Nat.div_le_upper_bound i 2 i; lia.
    + case: (List.last _ _) => [c t|o]; (split=> //; split; first by ok_bytes); (split; first by ok_bytes); (split; first by vm_compute); exact: D.
  - move=> tr _. apply: Nat.le_trans (T_CcpGame.flen _ _) _. rewrite seq_length. exact: le_n.
  - move=> tr a _. rewrite /ex_adversary. case: ifP => // _. case: (List.last _ _) => [c t|o] [] <-; by vm_compute.
Qed.
Example C95_cca_ex D : (`| pr_says true ex_adversary D 20 - pr_says false ex_adversary D 20 | <= 2%:R * ((20 * 3)%N%:R * 33%:R ^+ 2 / 2%:R ^+ 103))%R.
Proof. exact: (C95_cca ex_adversary D 20 20 3 (proj1 ex_adversary_ok)). Qed.
