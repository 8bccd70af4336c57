(** Accounts that balance, for any contract of the DAO. *)
From Verif Require Import Base OMap OMapLemmas Assets FundsModel MemberModel MemberSpec MemberProofs MemberFacts Msgs ControllerModel
  TreasuryModel EnterpriseModel OutpostsModel WorldModel WorldSpec WorldProofs WorldRun LedgerSpec LedgerProofs.

Section P.
Context {X : Type}.
Variable Out : outside X.
Variable A : addrs.

Local Notation world := (world X).
Local Notation go := (go Out A).
Local Notation handle := (handle Out A).
Local Notation on_reply := (on_reply Out A).
Local Notation other_msg := (other_msg Out A).

Variable u : addr.
(** what a delivered message brings in, and what a message of [u] takes out *)
Variable inn : addr * cosmos_msg -> N.
Variable out : cosmos_msg -> N.
Variable hold : world -> N.
Variable fit : world -> Prop.
Hypothesis Hu : is_dao A u = true.
Hypothesis In_u : forall s to m coins, to <> u -> inn (s, WasmExecute to m coins) = 0.
Hypothesis In_other : forall s m, (forall to wm coins, m <> WasmExecute to wm coins) -> inn (s, m) = 0.
Hypothesis K_ext : forall w x, (fit w -> fit (set_ext w x)) /\ hold (set_ext w x) = hold w.
Hypothesis K_note : forall w s m, (fit w -> fit (note w s m)) /\ hold (note w s m) = hold w.
Hypothesis K_up : forall w, (fit w -> fit (set_upgraded w)) /\ hold (set_upgraded w) = hold w.
Hypothesis K_handle : forall n w e s to m coins w1 subs d,
  handle n w e s to m coins = Ok (w1, subs, d) -> to <> u -> (fit w -> fit w1) /\ hold w1 = hold w.
Hypothesis K_reply : forall w e self id r w1 more,
  on_reply w e self id r = Ok (w1, more) -> self <> u -> (fit w -> fit w1) /\ hold w1 = hold w.
Hypothesis K_own : forall n w e s m coins w1 subs d,
  handle n w e s u m coins = Ok (w1, subs, d) -> fit w ->
  fit w1 /\ hold w1 + lsum (fun y => out (sm_msg y)) subs = hold w + inn (s, WasmExecute u m coins) /\
  Forall (fun y => sm_reply y = ReplyNever) subs.

Definition outgoing (x : addr * cosmos_msg) : N := if fst x =? u then out (snd x) else 0.
Definition still (j : job) : N :=
  match j with JMsg s m => outgoing (s, m) | JSubs self subs => lsum (fun y => outgoing (self, sm_msg y)) subs end.
Definition plainly (j : job) : Prop :=
  match j with JMsg _ _ => True | JSubs self subs => self = u -> Forall (fun y => sm_reply y = ReplyNever) subs end.

Lemma still_own subs : still (JSubs u subs) = lsum (fun y => out (sm_msg y)) subs.
Proof. cbn [still]. apply lsum_ext_in. intros y _. unfold outgoing. cbn [fst snd]. rewrite N.eqb_refl. reflexivity. Qed.

Lemma still_other self subs : self <> u -> still (JSubs self subs) = 0.
Proof. intros Hn. cbn [still]. apply lsum_zero. intros y _. unfold outgoing. cbn [fst]. destruct (N.eqb_spec self u); [contradiction|reflexivity]. Qed.

Lemma go_balance n : forall w e j w' d, go n w e j = Ok (w', d) -> plainly j -> fit w ->
  fit w' /\ hold w' + lsum outgoing (w_log w') + lsum inn (w_log w) = hold w + lsum outgoing (w_log w) + lsum inn (w_log w') + still j.
Proof.
  induction n as [|n IH]; intros w e j w' d H HP HF; [destruct j; discriminate|]. destruct j as [s m|self [|y rest]].
  - apply go_msg in H. destruct H as [(to & wm & coins & x & w1 & subs & d' & -> & Hx & Hh & Hg)|(Hn & Ho)].
    + set (w0 := set_ext (note w s (WasmExecute to wm coins)) x) in *.
      assert (F0 : fit w0) by (apply (proj1 (K_ext _ _)), (proj1 (K_note _ _ _)), HF).
      assert (H0 : hold w0 = hold w) by (unfold w0; rewrite (proj2 (K_ext _ _)); apply (proj2 (K_note _ _ _))).
      assert (L0 : w_log w0 = (s, WasmExecute to wm coins) :: w_log w) by reflexivity.
      assert (L1 : w_log w1 = w_log w0) by (eapply handle_log; exact Hh).
      cbn [still]. destruct (N.eq_dec to u) as [->|Hne].
      * destruct (K_own _ _ _ _ _ _ _ _ _ Hh F0) as (F1 & E1 & N1).
        destruct (IH _ _ _ _ _ Hg (fun _ => N1) F1) as (F2 & E2). split; [exact F2|].
        rewrite still_own, L1, L0, !lsum_cons in E2. lia.
      * destruct (K_handle _ _ _ _ _ _ _ _ _ _ Hh Hne) as (F1 & E1).
        destruct (IH _ _ _ _ _ Hg (fun Q => False_ind _ (Hne Q)) (F1 F0)) as (F2 & E2). split; [exact F2|].
        rewrite still_other, L1, L0, !lsum_cons, In_u in E2 by assumption. lia.
    + cbn [still].
      assert (L : w_log w' = (s, m) :: w_log w). { apply (other_quiet Out A) in Ho. destruct Ho as (_ & _ & _ & L & _). exact L. }
      rewrite L, !lsum_cons, In_other by assumption.
      assert (Q : (fit w -> fit w') /\ hold w' = hold w).
      { destruct (other_ext Out A _ _ _ _ _ _ Ho) as [->|[->|(x & _ & ->)]].
        - apply K_note.
        - destruct (K_up (note w s m)) as (a & b), (K_note w s m) as (c & g). split; [auto|congruence].
        - destruct (K_ext (note w s m) x) as (a & b), (K_note w s m) as (c & g). split; [auto|congruence]. }
      destruct Q as (Q1 & Q2). split; [auto|]. lia.
  - apply go_nil in H. destruct H as [-> _]. split; [exact HF|]. cbn [still]. change (lsum (fun y => outgoing (self, sm_msg y)) []) with 0. lia.
  - apply go_cons in H. destruct H as (n' & En & H). inversion En; subst n'.
    assert (ES : still (JSubs self (y :: rest)) = still (JMsg self (sm_msg y)) + still (JSubs self rest)) by (cbn [still]; rewrite lsum_cons; reflexivity).
    rewrite ES. clear ES.
    assert (HPr : plainly (JSubs self rest)). { intros E. specialize (HP E). inversion HP; assumption. }
    destruct H as [(w1 & d1 & H1 & [(_ & H2)|(id & w2 & more & w3 & d3 & HRep & H2 & H3 & H4)])
                  |(id & w2 & more & w3 & d3 & _ & HRep & H2 & H3 & H4)].
    + destruct (IH _ _ _ _ _ H1 I HF) as (F1 & E1). destruct (IH _ _ _ _ _ H2 HPr F1) as (F2 & E2). split; [exact F2|lia].
    + assert (Hn : self <> u). { intros E. specialize (HP E). inversion HP as [|? ? Q _]; subst. rewrite Q in HRep. destruct HRep; discriminate. }
      destruct (IH _ _ _ _ _ H1 I HF) as (F1 & E1). destruct (K_reply _ _ _ _ _ _ _ H2 Hn) as (F2 & E2). specialize (F2 F1).
      assert (L2 : w_log w2 = w_log w1) by (eapply reply_log; exact H2).
      destruct (IH _ _ _ _ _ H3 (fun Q => False_ind _ (Hn Q)) F2) as (F3 & E3). destruct (IH _ _ _ _ _ H4 HPr F3) as (F4 & E4).
      split; [exact F4|]. rewrite still_other in E3 by assumption. rewrite L2 in E3. lia.
    + assert (Hn : self <> u). { intros E. specialize (HP E). inversion HP as [|? ? Q _]; subst. rewrite Q in HRep. discriminate. }
      destruct (K_reply _ _ _ _ _ _ _ H2 Hn) as (F2 & E2). specialize (F2 HF).
      assert (L2 : w_log w2 = w_log w) by (eapply reply_log; exact H2).
      destruct (IH _ _ _ _ _ H3 (fun Q => False_ind _ (Hn Q)) F2) as (F3 & E3). destruct (IH _ _ _ _ _ H4 HPr F3) as (F4 & E4).
      split; [exact F4|]. rewrite still_other in E3 by assumption. rewrite L2 in E3.
      assert (Z : still (JMsg self (sm_msg y)) = 0). { cbn [still]. unfold outgoing. cbn [fst]. destruct (N.eqb_spec self u); [contradiction|reflexivity]. }
      lia.
Qed.

Lemma run_balance ts : forall w, fit w -> hold w + lsum outgoing (w_log w) = lsum inn (w_log w) ->
  fit (world_run Out A w ts) /\
  lsum inn (w_log (world_run Out A w ts)) = hold (world_run Out A w ts) + lsum outgoing (w_log (world_run Out A w ts)).
Proof.
  induction ts as [|t ts IH]; intros w HF HB; [split; [exact HF|symmetry; exact HB]|].
  change (world_run Out A w (t :: ts)) with (world_run Out A (world_step Out A w t) ts).
  destruct (step_cases Out A w t) as [->|(d & Hd & H)]; [apply IH; assumption|].
  assert (Hn : tx_signer t <> u) by congruence.
  destruct (go_balance _ _ _ _ _ _ H I HF) as (F1 & E1). apply IH; [exact F1|].
  assert (Z : still (JMsg (tx_signer t) (tx_msg t)) = 0). { cbn [still]. unfold outgoing. cbn [fst]. destruct (N.eqb_spec (tx_signer t) u); [contradiction|reflexivity]. }
  lia.
Qed.

End P.
