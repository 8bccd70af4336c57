(** What a contract of the DAO sends, and on what occasion. *)
From Verif Require Import Base OMap OMapLemmas Assets FundsModel MemberModel MemberSpec MemberProofs MemberFacts Msgs ControllerModel
  TreasuryModel EnterpriseModel OutpostsModel WorldModel WorldSpec WorldProofs WorldRun LedgerSpec LedgerProofs.

Section S.
Context {X K : Type}.
Variable Out : outside X.
Variable A : addrs.

Local Notation world := (world X).
Local Notation go := (go Out A).
Local Notation handle := (handle Out A).
Local Notation on_reply := (on_reply Out A).

Variable u : addr.
Variable key : world -> K.
Variable fit : K -> Prop.
(** [allowed k l m]: with the state [k] and after the calls [l], the contract may send [m] *)
Variable allowed : K -> list (addr * cosmos_msg) -> cosmos_msg -> Prop.
Hypothesis Hu : is_dao A u = true.
Hypothesis More : forall k l x m, allowed k l m -> allowed k (x :: l) m.
Hypothesis K_ext : forall w x, key (set_ext w x) = key w.
Hypothesis K_note : forall w s m, key (note w s m) = key w.
Hypothesis K_up : forall w, key (set_upgraded w) = key w.
Hypothesis K_handle : forall n w e s to m coins w1 subs d, handle n w e s to m coins = Ok (w1, subs, d) -> to <> u -> key w1 = key w.
Hypothesis K_reply : forall w e self id r w1 more, on_reply w e self id r = Ok (w1, more) -> self <> u /\ key w1 = key w.
Hypothesis K_own : forall n w e s m coins w1 subs d,
  handle n w e s u m coins = Ok (w1, subs, d) -> fit (key w) -> fit (key w1) /\
  (forall l y, In y subs -> In (s, WasmExecute u m coins) l -> allowed (key w1) l (sm_msg y)) /\
  (forall l m', allowed (key w) l m' -> allowed (key w1) l m').

Definition sound (k : K) (l : list (addr * cosmos_msg)) : Prop := forall l1 m l2, l = l1 ++ (u, m) :: l2 -> allowed k l2 m.
Definition ready (k : K) (l : list (addr * cosmos_msg)) (j : job) : Prop :=
  match j with
  | JMsg s m => s = u -> allowed k l m
  | JSubs self subs => self = u -> forall y, In y subs -> allowed k l (sm_msg y)
  end.

Lemma more k l' l m : allowed k l m -> allowed k (l' ++ l) m.
Proof. intros H. induction l' as [|x l' IH]; [exact H|]. apply More. exact IH. Qed.

Lemma sound_cons k s m l : sound k l -> (s = u -> allowed k l m) -> sound k ((s, m) :: l).
Proof. intros H Ha l1 m' l2 E. destruct l1 as [|y l1]; injection E as ? ?; subst; [apply Ha; reflexivity|]. eapply H. reflexivity. Qed.

Lemma sound_keep k k' l : (forall l m, allowed k l m -> allowed k' l m) -> sound k l -> sound k' l.
Proof. intros H Hs l1 m l2 E. apply H. eapply Hs. exact E. Qed.

Definition grown (w w' : world) : Prop :=
  fit (key w') /\ sound (key w') (w_log w') /\ (forall l m, allowed (key w) l m -> allowed (key w') l m) /\ exists l, w_log w' = l ++ w_log w.

Lemma grown_trans a b c : grown a b -> grown b c -> grown a c.
Proof.
  intros (_ & _ & H1 & l1 & E1) (F & S2 & H2 & l2 & E2). split; [exact F|]. split; [exact S2|]. split; [auto|].
  exists (l2 ++ l1). rewrite E2, E1, app_assoc. reflexivity.
Qed.

Lemma ready_grown a b self subs : grown a b -> ready (key a) (w_log a) (JSubs self subs) -> ready (key b) (w_log b) (JSubs self subs).
Proof. intros (_ & _ & H & l & E) R Eu y Hy. rewrite E. apply more, H, R; assumption. Qed.

Lemma go_sent n : forall w e j w' d, go n w e j = Ok (w', d) -> fit (key w) -> sound (key w) (w_log w) -> ready (key w) (w_log w) j -> grown w w'.
Proof.
  induction n as [|n IH]; intros w e j w' d H HF HS HR; [destruct j; discriminate|]. destruct j as [s m|self [|y rest]].
  - apply go_msg in H. destruct H as [(to & wm & coins & x & w1 & subs & d' & -> & Hx & Hh & Hg)|(Hn & Ho)].
    + set (w0 := set_ext (note w s (WasmExecute to wm coins)) x) in *.
      assert (K0 : key w0 = key w) by (unfold w0; rewrite K_ext; apply K_note).
      assert (L0 : w_log w0 = (s, WasmExecute to wm coins) :: w_log w) by reflexivity.
      assert (L1 : w_log w1 = w_log w0) by (eapply handle_log; exact Hh).
      assert (S0 : sound (key w0) (w_log w0)) by (rewrite K0, L0; apply sound_cons; assumption).
      assert (G1 : grown w w1 /\ ready (key w1) (w_log w1) (JSubs to subs)).
      { destruct (N.eq_dec to u) as [->|Hne].
        - rewrite <- K0 in HF. destruct (K_own _ _ _ _ _ _ _ _ _ Hh HF) as (F1 & A1 & P1). split.
          + split; [exact F1|]. rewrite L1. split; [eapply sound_keep; eassumption|]. split; [rewrite <- K0; exact P1|].
            exists [(s, WasmExecute u wm coins)]. exact L0.
          + intros _ y Hy. apply A1; [exact Hy|]. rewrite L1, L0. left. reflexivity.
        - pose proof (K_handle _ _ _ _ _ _ _ _ _ _ Hh Hne) as E1. split; [|intros Q; contradiction].
          unfold grown. rewrite E1, L1, K0. rewrite K0 in S0. split; [exact HF|]. split; [exact S0|]. split; [auto|].
          exists [(s, WasmExecute to wm coins)]. exact L0. }
      destruct G1 as (G1 & R1). pose proof G1 as (F1 & S1 & _). eapply grown_trans; [exact G1|]. eapply IH; eassumption.
    + assert (L : w_log w' = (s, m) :: w_log w). { apply (other_quiet Out A) in Ho. destruct Ho as (_ & _ & _ & L & _). exact L. }
      assert (Q : key w' = key w).
      { destruct (other_ext Out A _ _ _ _ _ _ Ho) as [->|[->|(x & _ & ->)]]; rewrite ?K_up, ?K_ext; apply K_note. }
      unfold grown. rewrite Q, L. split; [exact HF|]. split; [apply sound_cons; assumption|]. split; [auto|]. exists [(s, m)]. reflexivity.
  - apply go_nil in H. destruct H as [-> _]. split; [exact HF|]. split; [exact HS|]. split; [auto|]. exists []. reflexivity.
  - apply go_cons in H. destruct H as (n' & En & H). inversion En; subst n'.
    assert (HRr : ready (key w) (w_log w) (JSubs self rest)) by (intros E z Hz; apply HR; [exact E|right; exact Hz]).
    assert (HRm : ready (key w) (w_log w) (JMsg self (sm_msg y))) by (intros E; apply HR; [exact E|left; reflexivity]).
    assert (Rep : forall w1 id r w2 more w3 d3, grown w w1 -> on_reply w1 e self id r = Ok (w2, more) ->
              go n w2 e (JSubs self more) = Ok (w3, d3) -> go n w3 e (JSubs self rest) = Ok (w', d) -> grown w w').
    { intros w1 id r w2 more0 w3 d3 G1 H2 H3 H4. destruct (K_reply _ _ _ _ _ _ _ H2) as (Hn & E2).
      assert (L2 : w_log w2 = w_log w1) by (eapply reply_log; exact H2).
      assert (G2 : grown w w2) by (unfold grown in *; rewrite E2, L2; exact G1). pose proof G2 as (F2 & S2 & _).
      assert (G3 : grown w2 w3) by (eapply IH; [exact H3|exact F2|exact S2|intros E; contradiction]). pose proof G3 as (F3 & S3 & _).
      pose proof (grown_trans _ _ _ G2 G3) as G. eapply grown_trans; [exact G|].
      eapply IH; [exact H4|exact F3|exact S3|]. eapply ready_grown; eassumption. }
    destruct H as [(w1 & d1 & H1 & [(_ & H2)|(id & w2 & more0 & w3 & d3 & _ & H2 & H3 & H4)])
                  |(id & w2 & more0 & w3 & d3 & _ & _ & H2 & H3 & H4)].
    + assert (G1 : grown w w1) by (eapply IH; eassumption). pose proof G1 as (F1 & S1 & _). eapply grown_trans; [exact G1|].
      eapply IH; [exact H2|exact F1|exact S1|]. eapply ready_grown; eassumption.
    + eapply Rep; [eapply IH; eassumption|eassumption..].
    + eapply Rep; [|eassumption..]. split; [exact HF|]. split; [exact HS|]. split; [auto|]. exists []. reflexivity.
Qed.

Lemma run_sent ts : forall w, fit (key w) -> sound (key w) (w_log w) ->
  fit (key (world_run Out A w ts)) /\ sound (key (world_run Out A w ts)) (w_log (world_run Out A w ts)).
Proof.
  induction ts as [|t ts IH]; intros w HF HS; [split; assumption|].
  change (world_run Out A w (t :: ts)) with (world_run Out A (world_step Out A w t) ts).
  destruct (step_cases Out A w t) as [->|(d & Hd & H)]; [apply IH; assumption|].
  assert (Hn : tx_signer t <> u) by congruence.
  destruct (go_sent _ _ _ _ _ _ H HF HS) as (F & S1 & _); [intros E; contradiction|]. apply IH; assumption.
Qed.

End S.
