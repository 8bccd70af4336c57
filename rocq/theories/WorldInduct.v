(** An induction principle for whole-DAO invariants. *)
From Verif Require Import Base OMap OMapLemmas Assets PollModel PollSpec PollProofs PollFacts FundsModel FundsSpec MemberModel MemberSpec Msgs
  ControllerModel ControllerSpec ControllerProofs ControllerFacts TreasuryModel EnterpriseModel OutpostsModel WorldModel WorldSpec WorldProofs WorldRun LiftFacts.

Section Induct.
Context {X : Type}.
Variable Out : outside X.
Variable A : addrs.
Hypothesis HA : NoDup (dao_addrs A).

(** A vote may set the time before which the proposal cannot be executed early; it is never after the end of the poll. *)
Definition early_set (w w1 : world X) (m : controller_msg) : Prop :=
  forall id out, m = CCastVote id out -> forall p', oget (ct_proposals (w_ctl w1)) id = Some p' ->
    (exists p, oget (ct_proposals (w_ctl w)) id = Some p /\ pi_earliest p' = pi_earliest p) \/
    (exists t pl, pi_earliest p' = Some t /\ oget (g_polls (w_gov w1)) id = Some pl /\ t <= p_ends_at pl).

Lemma vote_reply_early o s e s' out c id k : reply_cast_vote o s e = Ok (s', out) -> co_components o = Ok c -> ct_voting s = Some (id, k) ->
  ct_proposals s' = ct_proposals s \/
  exists p t y total st ends, t = N.min y ends /\ co_simulate o (c_governance c) id total = Ok (st, ends) /\ oget (ct_proposals s) id = Some p /\
    ct_proposals s' = oset (ct_proposals s) id (mk_info (pi_type p) (pi_executed_at p) (Some t) (pi_deposit p) (pi_actions p)).
Proof.
  unfold reply_cast_vote. intros H HC HV. rewrite HV in H. cbn [ok_or bind] in H.
  destruct (negb (gc_allow_early (ct_config (with_voting s None)))); [inversion H; subst; auto|].
  apply bind_ok in H. destruct H as (t & _ & H). cbv beta in H.
  destruct (dao_type_eqb t DaoMultisig); [inversion H; subst; auto|].
  apply bind_ok in H. destruct H as (p & Hp & H). cbv beta in H. apply ok_or_ok in Hp.
  destruct (proposal_type_eqb (pi_type p) Council) eqn:ET; [inversion H; subst; auto|].
  apply bind_ok in H. destruct H as (total & _ & H). cbv beta in H.
  apply bind_ok in H. destruct H as ([st en] & HS & H). cbv beta iota in H.
  destruct (exec_status_eqb (exec_status_of st) k); [inversion H; subst; auto|].
  apply bind_ok in H. destruct H as (ea & HE & H). cbv beta in H. injection H as <- <-. right.
  unfold simulate in HS. rewrite HC in HS. cbn [bind] in HS.
  exists p, (N.min ea en), ea, total, st, en. split; [reflexivity|]. split; [exact HS|]. split; [exact Hp|reflexivity].
Qed.

(** The controller's turn, with that fact. *)
Lemma ctl_turn_early n (w : world X) e sender coins m s' subs w' d :
  wired A w -> ctl_execute (ctl_oracle_of Out A w) (a_controller A) (w_ctl w) e sender coins m = Ok (s', subs) ->
  go Out A n (set_ctl w s') e (JSubs (a_controller A) subs) = Ok (w', d) ->
  exists n' w1 subs1, (n' <= n)%nat /\ turn Out A w e sender m w1 subs1 /\ early_set w w1 m /\
    exists d', go Out A n' w1 e (JSubs (a_controller A) subs1) = Ok (w', d').
Proof.
  intros HW HX HG.
  assert (G : (exists id out, m = CCastVote id out) \/ (forall id out, m <> CCastVote id out)).
  { destruct m; try (right; intros; discriminate). left. eauto. }
  destruct G as [(id & out & ->)|G].
  2: { destruct (ctl_turn Out A HA _ _ _ _ _ _ _ _ _ _ HW HX HG) as (n' & w1 & subs1 & L & T & G2). exists n', w1, subs1.
       split; [exact L|]. split; [exact T|]. split; [|exact G2]. intros id out E. destruct (G _ _ E). }
  destruct (wired_components Out A _ HW) as (att & HC).
  assert (HX1 := HX). apply (ctl_call _ HA _ _ _ _ _ _ _ _ _ HC (wi_of _ _ HW)) in HX1.
  remember (CCastVote id out) as cm eqn:EM. destruct HX1; try discriminate EM;
    try (match goal with Q : creates _ |- _ => rewrite EM in Q; destruct Q end);
    try (match goal with Q : _ \/ _ |- _ => destruct Q as [Q|(? & Q & _)]; rewrite EM in Q; discriminate Q end).
  injection EM as -> ->.
  apply (go_gov Out A HA) in HG. destruct HG as (n' & x & g & dd & s2 & more & w3 & d3 & -> & HG & HR & H1' & H2').
  apply gov_execute_ok in HG. destruct HG as (_ & HG & ->).
  set (w2 := after_gov A (set_ctl w (with_voting (w_ctl w) (Some (id, k)))) (GCastVote id out sender amount) x g) in *.
  change (reply_cast_vote (ctl_oracle_of Out A w2) (with_voting (w_ctl w) (Some (id, k))) e = Ok (s2, more)) in HR.
  assert (HC2 : co_components (ctl_oracle_of Out A w2) = Ok (wiring_of A att)) by exact HC.
  assert (HE := vote_reply_early _ _ _ _ _ _ id k HR HC2 eq_refl).
  apply reply_vote_ok in HR. destruct HR as (id' & k' & E & -> & HR). cbn in E. injection E as <- <-.
  apply go_nil in H1'. destruct H1' as [-> ->]. eexists n', _, []. split; [lia|]. rewrite <- and_assoc. split; [|eexists; exact H2'].
  split.
  - destruct HR as [->|(p0 & t & ea & Hp & _ & _ & _ & ->)].
    + apply (tu_vote _ _ _ _ _ id p p out amount g); try assumption; try reflexivity; [repeat (split; [reflexivity|]); reflexivity|].
      intros i. cbn. destruct (N.eqb_spec id i) as [<-|]; [assumption|reflexivity].
    + cbn in Hp. assert (p0 = p) by congruence. subst p0.
      apply (tu_vote _ _ _ _ _ id p (mk_info (pi_type p) (pi_executed_at p) (Some t) (pi_deposit p) (pi_actions p)) out amount g);
        try assumption; try reflexivity; [repeat (split; [reflexivity|]); reflexivity|]. intros i. cbn. rewrite oget_oset. reflexivity.
  - intros i o E p' Hp'. injection E as <- <-. cbn [set_ctl w_ctl] in Hp'. cbn [with_voting ct_proposals] in HE.
    destruct HE as [E|(q & t & y & total & st & ends & -> & HS & Hq & E)].
    + left. rewrite E in Hp'. exists p'. split; [exact Hp'|reflexivity].
    + right. rewrite E, oget_oset_eq in Hp'. injection Hp' as <-. cbn [pi_earliest].
      cbn [co_simulate ctl_oracle_of c_governance wiring_of] in HS. unfold gov_at in HS. rewrite N.eqb_refl in HS. cbn [bind] in HS.
      apply bind_ok in HS. destruct HS as (v & _ & HS). apply bind_ok in HS. destruct HS as (pl & Hpl & HS). apply query_poll_ok in Hpl.
      exists (N.min y ends), pl. split; [reflexivity|]. split; [exact Hpl|]. inversion HS; subst. apply N.le_min_r.
Qed.

(** [P] is kept by everything that happens at [e]. *)
Record preserved (e : env) (P : world X -> Prop) : Prop := mk_preserved {
  pr_start : forall w s m x, P w -> P (set_ext (note w s m) x);
  pr_turn : forall w s coins m s' subs w1 subs1, wired A w -> P w -> size w1 < M64 ->
    ctl_execute (ctl_oracle_of Out A w) (a_controller A) (w_ctl w) e s coins m = Ok (s', subs) ->
    turn Out A w e s m w1 subs1 -> early_set w w1 m -> P w1;
  pr_gov : forall w s m g d, wired A w -> P w -> g_count (w_gov w) + 1 < M64 -> gov_execute (w_gov w) e s m = Ok (g, d) -> P (set_gov w g);
  pr_member : forall w s coins m st outs, wired A w -> P w ->
    member_execute (member_oracle_of Out A w (w_member w)) (w_member w) e s coins m = Ok (st, outs) -> P (set_member w st);
  pr_council : forall w s coins m st outs, wired A w -> P w ->
    member_execute (member_oracle_of Out A w (w_council w)) (w_council w) e s coins m = Ok (st, outs) -> P (set_councillors w st);
  pr_rest : forall w w1, P w -> w_ctl w1 = w_ctl w -> w_gov w1 = w_gov w -> w_member w1 = w_member w -> w_council w1 = w_council w -> P w1
}.

Lemma induct_go e P : preserved e P -> forall n w j w' d, go Out A n w e j = Ok (w', d) -> wired A w ->
  match j with JSubs self subs => self = a_controller A -> fine subs | JMsg _ _ => True end ->
  size w' < M64 -> P w -> P w'.
Proof.
  intros HP. induction n as [n IH] using lt_wf_ind. intros w j w' d H HW HF HS HI.
  assert (HQ : forall w w1 k, others_same w w1 k -> k <> 0 -> k <> 1 -> k <> 2 -> k <> 3 -> P w -> P w1).
  { intros v v1 k Q N0 N1 N2 N3 Pv. apply (pr_rest _ _ HP v); [exact Pv|exact (same_ctl _ _ _ Q N0)|exact (same_gov _ _ _ Q N1)|exact (same_member _ _ _ Q N2)|
      exact (same_council _ _ _ Q N3)]. }
  destruct j as [s m|self [|x rest]].
  - destruct n as [|n]; [discriminate|].
    apply go_msg in H. destruct H as [(to & wm & coins & x & w1 & subs & d' & -> & _ & Hh & Hg)|(_ & Ho)].
    + destruct (start_wired A w s (WasmExecute to wm coins) x HW) as (W0 & K0 & S0).
      pose proof (pr_start _ _ HP _ s (WasmExecute to wm coins) x HI) as P0.
      pose proof (wi_count _ _ HW) as HC0.
      set (w0 := set_ext (note w s (WasmExecute to wm coins)) x) in *.
      pose proof (go_size _ _ _ _ _ _ _ _ Hg) as GS.
      assert (Hh2 := Hh). apply (handle_all Out A) in Hh2.
      apply (handle_cases Out A) in Hh.
      destruct Hh as [(-> & cm & s' & -> & He & -> & _)|[(-> & gm & g & -> & He & -> & ->)|[(-> & mm & s' & outs & -> & He & -> & -> & _)|(N1 & N2 & N3 & Q)]]].
      * clear Hh2. destruct (ctl_turn_early _ _ _ _ _ _ _ _ _ _ W0 He Hg) as (n' & w1 & subs1 & L & T & ES & d2 & G).
        pose proof (go_size _ _ _ _ _ _ _ _ G) as GS1.
        assert (P1 : P w1) by (eapply (pr_turn _ _ HP w0); try eassumption; lia).
        apply (turn_wired Out A) in T; [|assumption|lia]. destruct T as (W1 & K1 & F1).
        exact (IH n' ltac:(lia) _ _ _ _ G W1 (fun _ => F1) HS P1).
      * clear Hh2. apply go_nil in Hg. destruct Hg as [-> _]. eapply (pr_gov _ _ HP w0); try eassumption.
        assert (SE : size (set_gov w0 g) = size w0) by reflexivity. rewrite SE in *. change (w_gov w0) with (w_gov w). lia.
      * clear Hh2. destruct (member_wired A w0 s' W0) as (W1 & K1).
        eapply (IH n ltac:(lia) _ _ _ _ Hg W1); [intros E; destruct (member_not_ctl A HA E)|exact HS|].
        eapply (pr_member _ _ HP w0); eassumption.
      * destruct (quiet_wired A _ _ Q W0) as (W1 & K1).
        eapply (IH n ltac:(lia) _ _ _ _ Hg W1); [intros E; destruct (N1 E)|exact HS|].
        destruct Hh2 as [(E & _)|[(E & _)|[(E & _)|[(-> & HS' & cm & outs & -> & He)|
          [(-> & HS' & _)|[(-> & HS' & _)|[(-> & HS' & _)|[(-> & HS' & _)|(_ & HS')]]]]]]]]; try contradiction;
          try (eapply HQ; [exact HS'| | | | |exact P0]; discriminate).
        assert (EW : P (set_councillors w0 (w_council w1))) by (eapply (pr_council _ _ HP w0); eassumption).
        eapply (pr_rest _ _ HP); [exact EW| | | |]; cbn; [apply (same_ctl _ _ _ HS')|apply (same_gov _ _ _ HS')|apply (same_member _ _ _ HS')|reflexivity]; discriminate.
    + assert (Ho2 := Ho). apply (other_all Out A) in Ho2. eapply HQ; [exact Ho2| | | | |]; try discriminate.
      pose proof (pr_start _ _ HP _ s m (w_ext w) HI) as P0. eapply (pr_rest _ _ HP); [exact P0| | | |]; reflexivity.
  - apply go_nil in H. destruct H as [-> _]. exact HI.
  - apply go_cons in H. destruct H as (n' & -> & H).
    assert (HR : forall wa id r wb more wc dc wd dd, sm_reply x = ReplySuccess id \/ sm_reply x = ReplyAlways id ->
      wired A wa -> P wa -> on_reply Out A wa e self id r = Ok (wb, more) -> go Out A n' wb e (JSubs self more) = Ok (wc, dc) ->
      go Out A n' wc e (JSubs self rest) = Ok (wd, dd) -> size wd < M64 -> P wd).
    { intros wa id r wb more wc dc wd dd HI' Wa Pa Hr Hg1 Hg2 Sd.
      pose proof (go_size _ _ _ _ _ _ _ _ Hg2) as S2.
      assert (Wb : wired A wb /\ P wb /\ (self = a_controller A -> fine more)).
      { assert (Hr2 := Hr). apply (reply_all Out A) in Hr2. apply (reply_cases Out A) in Hr. destruct Hr as [(-> & s' & Hr & ->)|(N & Q)].
        - clear Hr2. assert (id = 3) as ->. { specialize (HF eq_refl). inversion HF as [|? ? F1 F2]; subst. destruct HI' as [E|E], F1 as [F|F]; congruence. }
          apply reply_3 in Hr. destruct Hr as [-> ->]. rewrite set_ctl_same. split; [exact Wa|]. split; [exact Pa|]. intros _; constructor.
        - split; [apply (quiet_wired A _ _ Q Wa)|]. split; [|intros E; destruct (N E)].
          destruct Q as (Q1 & Q2 & Q3 & _).
          assert (Q4 : w_council wb = w_council wa).
          { destruct Hr2 as [(Q & _)|[(Q & _)|Q]]; apply (same_council _ _ _ Q); discriminate. }
          exact (pr_rest _ _ HP _ _ Pa Q1 Q2 Q3 Q4). }
      destruct Wb as (Wb & Pb & Fb).
      pose proof (IH n' ltac:(lia) _ _ _ _ Hg1 Wb Fb ltac:(lia) Pb) as Pc.
      destruct (layer1 Out A HA _ _ _ _ _ _ Hg1 Wb Fb ltac:(lia)) as (Wc & _).
      exact (IH n' ltac:(lia) _ _ _ _ Hg2 Wc (fun E => Forall_inv_tail (HF E)) Sd Pc). }
    destruct H as [(w1 & d1 & H1 & [(_ & H2)|(id & w2 & more & w3 & d3 & E & H2 & H3 & H4)])|(id & w2 & more & w3 & d3 & _ & E & H2 & H3 & H4)].
    + pose proof (go_size _ _ _ _ _ _ _ _ H2).
      pose proof (IH n' ltac:(lia) _ _ _ _ H1 HW I ltac:(lia) HI) as P1. destruct (layer1 Out A HA _ _ _ _ _ _ H1 HW I ltac:(lia)) as (W1 & _).
      exact (IH n' ltac:(lia) _ _ _ _ H2 W1 (fun E => Forall_inv_tail (HF E)) HS P1).
    + assert (size w1 < M64).
      { pose proof (go_size _ _ _ _ _ _ _ _ H3). pose proof (go_size _ _ _ _ _ _ _ _ H4). apply (reply_log Out A) in H2. unfold size in *. rewrite H2 in *. lia. }
      pose proof (IH n' ltac:(lia) _ _ _ _ H1 HW I ltac:(lia) HI) as P1. destruct (layer1 Out A HA _ _ _ _ _ _ H1 HW I ltac:(lia)) as (W1 & _).
      eapply HR; eassumption.
    + eapply HR; try eassumption. right; exact E.
Qed.

(** Over a history: [Q] after each transaction, with what [P] says of the block. *)
Lemma induct_run (P : N -> world X -> Prop) ts : forall now w,
  (forall now e, now <= e_time e -> preserved e (P (e_time e))) ->
  (forall a b v, a <= b -> P a v -> P b v) ->
  timely now ts -> wired A w -> size (world_run Out A w ts) < M64 -> P now w -> P (last_from now ts) (world_run Out A w ts).
Proof.
  induction ts as [|t ts IH]; intros now w HP HM T HW HS Hw; [exact Hw|]. destruct T as (T1 & T2).
  change (world_run Out A w (t :: ts)) with (world_run Out A (world_step Out A w t) ts) in *.
  change (last_from now (t :: ts)) with (last_from (e_time (tx_env t)) ts).
  pose proof (run_size Out A ts (world_step Out A w t)) as S1.
  apply (HM _ _ _ T1) in Hw.
  destruct (step_cases Out A w t) as [E|(d & Hd & H)]; [rewrite E in *; apply IH; assumption|].
  apply IH; try assumption.
  - eapply (layer1 Out A HA _ _ _ _ _ _ H HW I). lia.
  - eapply (induct_go _ _ (HP _ _ T1)); [exact H|exact HW|exact I|lia|exact Hw].
Qed.
End Induct.
