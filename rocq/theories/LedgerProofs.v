(** The DAO's contracts hold what they owe. *)
From Verif Require Import Base OMap OMapLemmas Assets PollModel PollSpec PollProofs PollFacts FundsModel FundsSpec FundsProofs FundsFacts
  MemberModel MemberSpec
  MemberProofs MemberFacts Msgs ControllerModel ControllerSpec ControllerProofs ControllerFacts TreasuryModel EnterpriseModel
  EnterpriseSpec EnterpriseFacts OutpostsModel WorldModel WorldSpec WorldMember WorldProofs WorldRun LedgerSpec.

Lemma reports_keeper u h s m : reports u h s m <> 0 -> keeper h = Some s.
Proof.
  unfold reports. destruct m; try congruence. destruct (contract =? u); [|congruence].
  destruct h as [[d|t|t i]|c k], m; try congruence; cbn [keeper].
  1: destruct m; try congruence; destruct (s =? t) eqn:E; try congruence; apply N.eqb_eq in E; subst; reflexivity.
  1: destruct m; try congruence; destruct m; try congruence; destruct (s =? t) eqn:E; try congruence; apply N.eqb_eq in E; subst; reflexivity.
  1: destruct m; try congruence; destruct (s =? t) eqn:E; try congruence; apply N.eqb_eq in E; subst; reflexivity.
  destruct m; try congruence; destruct m; try congruence.
  destruct (s =? c) eqn:E; cbn; try congruence. apply N.eqb_eq in E; subst; reflexivity.
Qed.

Section G.
Context {X : Type}.
Variable Out : outside X.
Variable A : addrs.

Local Notation world := (world X).
Local Notation go := (go Out A).
Local Notation handle := (handle Out A).
Local Notation on_reply := (on_reply Out A).
Local Notation other_msg := (other_msg Out A).

(** * What lies outside *)

Lemma is_dao_in a : is_dao A a = true <-> In a (dao_addrs A).
Proof.
  unfold is_dao. rewrite existsb_exists. split.
  - intros (y & Hy & E). apply N.eqb_eq in E. subst. exact Hy.
  - intros H. exists a. split; [exact H|apply N.eqb_refl].
Qed.

Ltac out_of N H := let E := fresh in
  assert (E : is_dao A N = true) by (apply is_dao_in; unfold dao_addrs; cbn [In]; tauto).

Lemma handle_ext n w e s to m coins w1 subs d : handle n w e s to m coins = Ok (w1, subs, d) ->
  (is_dao A to = true /\ w_ext w1 = w_ext w) \/
  (is_dao A to = false /\ exists x, x_exec Out w e s to m coins = Ok (x, subs, d) /\ w1 = set_ext w x).
Proof.
  unfold WorldModel.handle. intros H.
  repeat match type of H with
  | (if ?a =? ?b then _ else _) = _ => destruct (N.eqb_spec a b) as [->|];
      [left; split; [apply is_dao_in; unfold dao_addrs; cbn [In]; tauto|]; destruct m; try discriminate; pb H; inversion H; subst; reflexivity|]
  end.
  right. pb H. inversion H; subst. split; [|eauto].
  destruct (is_dao A to) eqn:E; [|reflexivity]. apply is_dao_in in E. unfold dao_addrs in E. cbn [In] in E. intuition congruence.
Qed.

Lemma reply_ext w e self id r w1 more : on_reply w e self id r = Ok (w1, more) ->
  (is_dao A self = true /\ w_ext w1 = w_ext w) \/
  (is_dao A self = false /\ exists x, x_reply Out w e self id r = Ok (x, more) /\ w1 = set_ext w x).
Proof.
  unfold WorldModel.on_reply. intros H.
  repeat match type of H with
  | (if ?a =? ?b then _ else _) = _ => destruct (N.eqb_spec a b) as [->|];
      [left; split; [apply is_dao_in; unfold dao_addrs; cbn [In]; tauto|]; pb H; inversion H; subst; reflexivity|]
  end.
  destruct (is_dao A self) eqn:E; [discriminate|]. right. split; [reflexivity|]. pb H. inversion H; subst. eauto.
Qed.

Lemma other_ext w e s m w1 d : other_msg w e s m = Ok (w1, d) ->
  w1 = w \/ w1 = set_upgraded w \/ exists x, x_msg Out w e s m = Ok (x, d) /\ w1 = set_ext w x.
Proof.
  unfold WorldModel.other_msg. intros H. destruct m; try (pb H; inversion H; subst; right; right; eauto; fail).
  all: destruct (is_dao A contract); pb H; inversion H; subst; eauto.
  apply bind_ok in H. destruct H as (w2 & E & H). inversion H; subst. apply migrate_cases in E. destruct E; subst; auto.
Qed.

(** * A contract [u] with its obligations [R] in [h] *)

Variable u : addr.
Variable h : holding.
Variable bal : X -> N.
Variable R : world -> N -> Prop.
Hypothesis Hu : is_dao A u = true.
Hypothesis Hbal : honest_ledger Out u h bal.
Hypothesis Hkeep : forall t, keeper h = Some t -> is_dao A t = false.
Hypothesis R_ext : forall w v x, R w v -> R (set_ext w x) v.
Hypothesis R_note : forall w v s m, R w v -> R (note w s m) v.
Hypothesis R_up : forall w v, R w v -> R (set_upgraded w) v.
Hypothesis R_handle : forall n w e s to m coins w1 subs d v,
  handle n w e s to m coins = Ok (w1, subs, d) -> to <> u -> R w v -> R w1 v.
Hypothesis R_reply : forall w e self id r w1 more v,
  on_reply w e self id r = Ok (w1, more) -> self <> u -> R w v -> R w1 v.
Hypothesis R_own : forall n w e s m coins w1 subs d v,
  handle n w e s u m coins = Ok (w1, subs, d) -> R w v ->
  exists v', R w1 v' /\
    v' + lsum (fun y => sends h (sm_msg y)) subs <= v + in_coins h coins + reports u h s (WasmExecute u m coins) /\
    Forall (fun y => sm_reply y = ReplyNever /\ ordinary (sm_msg y)) subs.

(** What a message still to be delivered accounts for: a transfer of [u] not yet carried out, or an arrival [u] has not
    yet been told of. *)
Definition pending (s : addr) (m : cosmos_msg) : N := (if s =? u then sends h m else 0) + reports u h s m.
Definition job_pending (j : job) : N :=
  match j with JMsg s m => pending s m | JSubs self subs => lsum (fun y => pending self (sm_msg y)) subs end.
Definition job_fits (j : job) : Prop :=
  match j with
  | JMsg s m => s = u -> ordinary m
  | JSubs self subs => self = u -> Forall (fun y => sm_reply y = ReplyNever /\ ordinary (sm_msg y)) subs
  end.

Lemma dao_reports s m : is_dao A s = true -> reports u h s m = 0.
Proof.
  intros Hs. destruct (N.eq_dec (reports u h s m) 0) as [|Hn]; [assumption|].
  apply reports_keeper in Hn. apply Hkeep in Hn. congruence.
Qed.

Lemma dao_pending self subs : is_dao A self = true -> self <> u -> job_pending (JSubs self subs) = 0.
Proof.
  intros Hs Hn. cbn [job_pending]. apply lsum_zero. intros y _. unfold pending. rewrite dao_reports by assumption.
  destruct (N.eqb_spec self u); [contradiction|reflexivity].
Qed.

Lemma own_pending subs : job_pending (JSubs u subs) = lsum (fun y => sends h (sm_msg y)) subs.
Proof.
  cbn [job_pending]. apply lsum_ext_in. intros y _. unfold pending. rewrite dao_reports by assumption. rewrite N.eqb_refl. lia.
Qed.

Lemma other_pending self subs : self <> u -> job_pending (JSubs self subs) = lsum (fun y => reports u h self (sm_msg y)) subs.
Proof.
  intros Hn. cbn [job_pending]. apply lsum_ext_in. intros y _. unfold pending. destruct (N.eqb_spec self u); [contradiction|lia].
Qed.

Lemma reply_backed w e self id r w1 more v k : on_reply w e self id r = Ok (w1, more) -> self <> u -> R w v ->
  v + k <= bal (w_ext w) -> R w1 v /\ v + job_pending (JSubs self more) + k <= bal (w_ext w1).
Proof.
  intros H Hn HR HB. split; [eapply R_reply; eassumption|].
  destruct (reply_ext _ _ _ _ _ _ _ H) as [(Hd & ->)|(Hd & x & Hx & ->)].
  - rewrite dao_pending by assumption. lia.
  - rewrite other_pending by assumption. cbn [w_ext set_ext]. pose proof (hl_reply _ _ _ _ _ Hbal _ _ _ _ _ _ _ Hx). lia.
Qed.

Lemma go_backed n : forall w e j w' d v k, go n w e j = Ok (w', d) -> job_fits j -> R w v ->
  v + job_pending j + k <= bal (w_ext w) -> exists v', R w' v' /\ v' + k <= bal (w_ext w').
Proof.
  induction n as [|n IH]; intros w e j w' d v k H HF HR HB; [discriminate|]. destruct j as [s m|self [|y rest]].
  - apply go_msg in H. destruct H as [(to & wm & coins & x & w1 & subs & d' & -> & Hx & Hh & Hg)|(Hn & Ho)].
    + pose proof (hl_pay _ _ _ _ _ Hbal _ _ _ _ _ Hx) as Hp. cbn [job_pending] in HB. unfold pending in HB.
      assert (Hc : (if s =? u then in_coins h coins else 0) = 0).
      { destruct (N.eqb_spec s u) as [->|]; [|reflexivity]. specialize (HF eq_refl). cbn in HF.
        destruct wm; try contradiction; destruct m; try contradiction; destruct coins; try contradiction; destruct h as [[]|]; reflexivity. }
      assert (HR' : R (set_ext (note w s (WasmExecute to wm coins)) x) v) by (apply R_ext, R_note; exact HR).
      rewrite Hc in Hp. destruct (N.eq_dec to u) as [->|Hne].
      * destruct (R_own _ _ _ _ _ _ _ _ _ _ Hh HR') as (v' & HR1 & Hle & HFS).
        destruct (handle_ext _ _ _ _ _ _ _ _ _ _ Hh) as [(_ & Ee)|(Hd & _)]; [|congruence]. cbn [w_ext set_ext note] in Ee.
        eapply (IH _ _ _ _ _ v' k Hg); [intros _; exact HFS|exact HR1|]. rewrite own_pending, Ee. rewrite N.eqb_refl in Hp. lia.
      * pose proof (R_handle _ _ _ _ _ _ _ _ _ _ _ Hh Hne HR') as HR1.
        apply (IH _ _ _ _ _ v k Hg); [intros E; contradiction|exact HR1|].
        destruct (handle_ext _ _ _ _ _ _ _ _ _ _ Hh) as [(Hd & Ee)|(Hd & x' & Hx' & ->)].
        -- rewrite dao_pending, Ee by assumption. cbn [w_ext set_ext note]. lia.
        -- rewrite other_pending by assumption.
           assert (HF' : s = u -> ordinary (WasmExecute to wm coins)) by exact HF.
           pose proof (hl_exec _ _ _ _ _ Hbal _ _ _ _ _ _ _ _ _ Hx' HF') as He. cbn [w_ext set_ext note] in *. lia.
    + cbn [job_pending] in HB. unfold pending in HB. destruct (other_ext _ _ _ _ _ _ Ho) as [->|[->|(x & Hx & ->)]].
      * exists v. split; [apply R_note; exact HR|]. cbn [w_ext note]. lia.
      * exists v. split; [apply R_up, R_note; exact HR|]. cbn [w_ext set_upgraded note]. lia.
      * exists v. split; [apply R_ext, R_note; exact HR|]. pose proof (hl_msg _ _ _ _ _ Hbal _ _ _ _ _ _ Hx HF) as Hm.
        cbn [w_ext set_ext note] in *. lia.
  - apply go_nil in H. destruct H as [-> _]. exists v. split; [exact HR|]. lia.
  - apply go_cons in H. destruct H as (n' & En & H). inversion En; subst n'.
    assert (EP : job_pending (JSubs self (y :: rest)) = pending self (sm_msg y) + job_pending (JSubs self rest)) by (unfold job_pending; rewrite lsum_cons; reflexivity).
    rewrite EP in HB. clear EP.
    assert (HFr : job_fits (JSubs self rest)). { intros E. specialize (HF E). inversion HF; assumption. }
    assert (HFm : job_fits (JMsg self (sm_msg y))). { intros E. specialize (HF E). inversion HF as [|? ? [_ Q]]; assumption. }
    destruct H as [(w1 & d1 & H1 & [(_ & H2)|(id & w2 & more & w3 & d3 & HRep & H2 & H3 & H4)])
                  |(id & w2 & more & w3 & d3 & _ & HRep & H2 & H3 & H4)].
    + destruct (IH _ _ _ _ _ v (job_pending (JSubs self rest) + k) H1 HFm HR) as (v1 & HR1 & HB1); [change (job_pending (JMsg self (sm_msg y))) with (pending self (sm_msg y)); lia|].
      eapply (IH _ _ _ _ _ v1 k H2); [exact HFr|exact HR1|lia].
    + assert (Hn : self <> u). { intros E. specialize (HF E). inversion HF as [|? ? [Q _]]; subst. rewrite Q in HRep. destruct HRep; discriminate. }
      destruct (IH _ _ _ _ _ v (job_pending (JSubs self rest) + k) H1 HFm HR) as (v1 & HR1 & HB1); [change (job_pending (JMsg self (sm_msg y))) with (pending self (sm_msg y)); lia|].
      destruct (reply_backed _ _ _ _ _ _ _ v1 (job_pending (JSubs self rest) + k) H2 Hn HR1 HB1) as (HR2 & HB2).
      destruct (IH _ _ _ _ _ v1 (job_pending (JSubs self rest) + k) H3) as (v3 & HR3 & HB3); [intros E; contradiction|exact HR2|lia|].
      apply (IH _ _ _ _ _ v3 k H4 HFr HR3). lia.
    + assert (Hn : self <> u). { intros E. specialize (HF E). inversion HF as [|? ? [Q _]]; subst. rewrite Q in HRep. discriminate. }
      destruct (reply_backed _ _ _ _ _ _ _ v (job_pending (JSubs self rest) + k) H2 Hn HR) as (HR2 & HB2); [lia|].
      destruct (IH _ _ _ _ _ v (job_pending (JSubs self rest) + k) H3) as (v3 & HR3 & HB3); [intros E; contradiction|exact HR2|lia|].
      apply (IH _ _ _ _ _ v3 k H4 HFr HR3). lia.
Qed.

Lemma run_backed ts : forall w v, (forall t x, keeper h = Some t -> In x ts -> tx_signer x <> t) -> R w v -> v <= bal (w_ext w) ->
  exists v', R (world_run Out A w ts) v' /\ v' <= bal (w_ext (world_run Out A w ts)).
Proof.
  induction ts as [|t ts IH]; intros w v HS HR HB; [exists v; auto|].
  change (world_run Out A w (t :: ts)) with (world_run Out A (world_step Out A w t) ts).
  assert (HS' : forall t0 x, keeper h = Some t0 -> In x ts -> tx_signer x <> t0) by (intros; eapply HS; [eassumption|right; assumption]).
  destruct (step_cases Out A w t) as [->|(d & Hd & H)]; [eapply IH; eassumption|].
  assert (Hn : tx_signer t <> u) by congruence.
  destruct (go_backed _ _ _ _ _ _ v 0 H) as (v1 & HR1 & HB1).
  - intros E; contradiction.
  - exact HR.
  - cbn [job_pending]. unfold pending. destruct (N.eqb_spec (tx_signer t) u); [contradiction|].
    destruct (N.eq_dec (reports u h (tx_signer t) (tx_msg t)) 0) as [->|Hr]; [lia|].
    apply reports_keeper in Hr. exfalso. exact (HS _ t Hr (or_introl eq_refl) eq_refl).
  - eapply (IH _ v1 HS' HR1). lia.
Qed.

End G.
