(** The controller sends what it is told by proposals, the enterprise contract what it is told by the controller: induction over everything delivered. *)
From Verif Require Import Base OMap OMapLemmas Assets PollModel PollSpec PollProofs PollFacts FundsModel FundsSpec MemberModel MemberSpec
  MemberProofs MemberFacts Msgs ControllerModel ControllerSpec ControllerProofs ControllerFacts TreasuryModel TreasurySpec TreasuryProofs
  EnterpriseModel EnterpriseSpec EnterpriseFacts OutpostsModel WorldModel WorldSpec WorldMember WorldProofs WorldRun LiftFacts FacadeSpec
  RewardProofs PurseSpec PurseProofs RuleSpec RuleProofs OrderSpec.

Section P.
Context {X : Type}.
Variable Out : outside X.
Variable A : addrs.
Hypothesis HA : NoDup (dao_addrs A).
Local Notation world := (world X).
Local Notation go := (go Out A).
Local Notation oracle := (ctl_oracle_of Out A).
Local Notation ctl_addr := (a_controller A).
Local Notation en_addr := (a_enterprise A).

(** * Actions *)

Definition told_by (a : proposal_action) (subs : list sub_msg) : Prop := Forall (fun x => commands A a (sm_msg x)) subs.
Lemma one_told a m : commands A a m -> told_by a [plain m].
Proof. intros H. constructor; [exact H|constructor]. Qed.

Lemma to_treasury_is o att m target x : co_components o = Ok (wiring_of A att) -> to_treasury o m target = Ok x -> x = plain (treasury_call A target m).
Proof. intros HC H. unfold to_treasury in H. rewrite HC in H. cbn [bind] in H. injection H as <-. destruct target; reflexivity. Qed.

Lemma given_in {T} (l : list (option T)) m : In m (given l) <-> In (Some m) l.
Proof.
  unfold given. rewrite in_flat_map. split.
  - intros ([y|] & H & Q); [destruct Q as [->|[]]; exact H|destruct Q].
  - intros H. exists (Some m). split; [exact H|left; reflexivity].
Qed.

Lemma action_told o s a s' subs att : co_components o = Ok (wiring_of A att) -> ct_enterprise s = en_addr ->
  run_action o s a = Ok (s', subs) -> told_by a subs.
Proof.
  intros HC HE H. destruct a; cbn [run_action] in H.
  - inversion H; subst. apply one_told. cbn. rewrite HE. reflexivity.
  - unfold act_gov_config in H. rewrite HC in H. cb.
    match goal with H : _ = Ok subs |- _ => rename H into HM end.
    destruct (gu_unlocking_period u) eqn:EP; cb; [|constructor]. destruct x; [apply one_told..|constructor];
      cbn; eexists; (split; [exact EP|eexists; split; [|reflexivity]; tauto]).
  - unfold act_council in H. rewrite HC in H. cb. apply one_told. cbn.
    destruct c; reflexivity.
  - cb. match goal with Q : to_treasury _ _ _ = Ok _ |- _ => apply (to_treasury_is _ _ _ _ _ HC) in Q; subst end. apply one_told. reflexivity.
  - cb. match goal with Q : to_treasury _ _ _ = Ok _ |- _ => apply (to_treasury_is _ _ _ _ _ HC) in Q; subst end. apply one_told. reflexivity.
  - cb. match goal with Q : to_treasury _ _ _ = Ok _ |- _ => apply (to_treasury_is _ _ _ _ _ HC) in Q; subst end. apply one_told. reflexivity.
  - cb. apply one_told. cbn. rewrite HE. reflexivity.
  - cb. match goal with H : parse_msgs _ = Ok _ |- _ => apply parsed in H; rename H into HP end.
    apply Forall_forall. intros y Hy. apply in_map_iff in Hy. destruct Hy as (z & <- & Hz). cbn. apply given_in. rewrite HP. exact Hz.
  - cb. match goal with Q : to_treasury _ _ _ = Ok _ |- _ => apply (to_treasury_is _ _ _ _ _ HC) in Q; subst end. apply one_told. reflexivity.
  - inversion H; subst. apply one_told. cbn. rewrite HE. reflexivity.
  - rewrite HC in H. cb. apply one_told. reflexivity.
  - rewrite HC in H. cb. apply one_told. reflexivity.
  - rewrite HC in H. cb. apply one_told. reflexivity.
  - rewrite HC in H. cb. apply one_told. reflexivity.
Qed.

Lemma actions_told o att : co_components o = Ok (wiring_of A att) -> forall l s acc s' subs,
  ct_enterprise s = en_addr -> fold_res (run_action_acc o) (s, acc) l = Ok (s', subs) ->
  forall x, In x subs -> In x acc \/ exists a, In a l /\ commands A a (sm_msg x).
Proof.
  intros HC. induction l as [|a l IH]; intros s acc s' subs HE H x Hx; cbn [fold_res] in H.
  - inversion H; subst. auto.
  - unfold run_action_acc in H at 1. cbn [fst snd] in H. cb.
    match goal with H : run_action _ _ _ = Ok _ |- _ => rename H into HR end.
    pose proof (run_action_frame _ _ _ _ _ HR) as (_ & EE & _).
    pose proof (action_told _ _ _ _ _ _ HC HE HR) as T.
    destruct (IH _ _ _ _ (eq_trans EE HE) H _ Hx) as [Q|(b & Hb & Q)]; [|right; exists b; split; [right; exact Hb|exact Q]].
    apply in_app_or in Q. destruct Q as [Q|Q]; [left; exact Q|]. right. exists a. split; [left; reflexivity|]. exact (proj1 (Forall_forall _ _) T _ Q).
Qed.

(** * The controller *)

Definition excused (w : world) l (m : cosmos_msg) : Prop := routine A w m \/ commanded A w l m.
Definition log_grows (w w1 : world) : Prop := exists l, w_log w1 = l ++ w_log w.

Lemma ran_grow l l1 id : In id (ran A l) -> In id (ran A (l1 ++ l)).
Proof. intros H. unfold ran in *. rewrite flat_map_app. apply in_or_app. right. exact H. Qed.

Lemma excused_kept w w1 l l1 m : kept w w1 -> excused w l m -> excused w1 (l1 ++ l) m.
Proof.
  intros (_ & _ & K) [R|(id & p & a & H1 & H2 & H3 & H4)].
  - left. destruct R as [| id p H E| | | |id p d to m H E1 E2 E3 E4]; try constructor.
    + destruct (K _ _ H) as (p' & H' & _ & E'). destruct (pi_executed_at p) as [b|] eqn:EB; [|contradiction]. apply (ro_run _ _ _ p' H'). rewrite (E' _ eq_refl). discriminate.
    + destruct (K _ _ H) as (p' & H' & C & E'). injection C as _ C _. destruct (pi_executed_at p) as [b|] eqn:EB; [|contradiction].
      apply (ro_deposit _ _ id p' d to); try assumption; [congruence|]. rewrite (E' _ eq_refl). discriminate.
  - right. destruct (K _ _ H2) as (p' & H' & C & _). injection C as _ _ C. exists id, p', a. split; [exact (ran_grow _ _ _ H1)|].
    split; [exact H'|]. split; [rewrite C; exact H3|exact H4].
Qed.
Lemma excused_same w w1 l m : kept w w1 -> excused w l m -> excused w1 l m.
Proof. exact (excused_kept w w1 l [] m). Qed.
Lemma excused_log w w1 m : kept w w1 -> log_grows w w1 -> excused w (w_log w) m -> excused w1 (w_log w1) m.
Proof. intros K (l & E) H. rewrite E. apply (excused_kept w); assumption. Qed.

Lemma sent_apart l log s m before : sent_after (l ++ log) s m before -> In (s, m) l \/ sent_after log s m before.
Proof.
  revert log. induction l as [|x l IH]; intros log (later & E); [right; exists later; exact E|]. destruct later as [|y later].
  - injection E as -> _. left. left. reflexivity.
  - injection E as -> E. destruct (IH log (ex_intro _ later E)) as [H|H]; [left; right; exact H|right; exact H].
Qed.
Lemma sent_first x log s m before : sent_after (x :: log) s m before -> (x = (s, m) /\ before = log) \/ sent_after log s m before.
Proof.
  intros (later & E). destruct later as [|y later].
  - injection E as -> ->. left. split; reflexivity.
  - injection E as -> E. right. exists later. exact E.
Qed.

Lemma hands_msgs to a l : hands_over to a l -> map sm_msg l = deposit_msgs to a.
Proof. intros H. destruct H; try reflexivity. cbn. induction H; [reflexivity|]. subst. cbn. f_equal. assumption. Qed.

(** what a turn leaves to be sent is excused afterwards, but for the actions *)
Lemma turn_excused w e sender m w1 subs1 : turn Out A w e sender m w1 subs1 -> free_councils w ->
  (forall id, m <> CExecuteActions id) -> m <> CDeployInitial -> (forall ch, m = CWeightsChanged ch -> sender <> a_council A) ->
  Forall (fun x => excused w1 (w_log w1) (sm_msg x)) subs1.
Proof.
  intros T F N1 N2 N3. destruct T.
  - eapply Forall_impl; [|exact H4]. intros x (to & t & ->). left. cbn. constructor.
  - constructor.
  - constructor.
  - assert (HP : oget (ct_proposals (w_ctl w1)) id = Some (mk_info (pi_type p) (Some e) (pi_earliest p) (pi_deposit p) (pi_actions p))) by (rewrite H6; apply oget_oset_eq).
    apply Forall_app. split.
    + destruct (p_status pl); try apply Forall_nil. constructor; [|constructor]. left. cbn. apply (ro_run _ _ _ _ HP). discriminate.
    + destruct (pi_deposit p) as [d|] eqn:ED; [|subst dep; constructor].
      destruct (pi_type p) eqn:ET; [|pose proof (F _ _ H ET); congruence].
      destruct (H7 eq_refl) as (to & HD & HH). apply Forall_forall. intros x Hx. left.
      apply (ro_deposit _ _ id _ d to _ HP); [reflexivity|discriminate| |].
      * inversion HD; auto.
      * rewrite <- (hands_msgs _ _ _ HH). apply in_map. exact Hx.
  - constructor; [|constructor]. left. cbn. constructor.
  - destruct (N1 _ eq_refl).
  - destruct H as [->|(ch & -> & E)]; [destruct (N2 eq_refl)|destruct (N3 _ eq_refl E)].
Qed.

Lemma ctl_excused n (w : world) e sender coins m s' subs w' d :
  wired A w -> free_councils w -> ctl_execute (oracle w) ctl_addr (w_ctl w) e sender coins m = Ok (s', subs) ->
  go n (set_ctl w s') e (JSubs ctl_addr subs) = Ok (w', d) -> (forall id, m = CExecuteActions id -> In id (ran A (w_log w))) ->
  exists n' w1 subs1, (n' <= n)%nat /\ turn Out A w e sender m w1 subs1 /\ (exists d', go n' w1 e (JSubs ctl_addr subs1) = Ok (w', d')) /\
    Forall (fun x => excused w1 (w_log w1) (sm_msg x)) subs1.
Proof.
  intros HW HF HX HG HR. destruct (wired_components Out A _ HW) as (att & HC).
  assert (G : (exists id, m = CExecuteActions id) \/ (m = CDeployInitial \/ exists ch, m = CWeightsChanged ch /\ sender = a_council A) \/
    ((forall id, m <> CExecuteActions id) /\ m <> CDeployInitial /\ forall ch, m = CWeightsChanged ch -> sender <> a_council A)).
  { destruct m; try (right; right; repeat split; congruence); [|left; eauto|right; left; left; reflexivity].
    destruct (N.eq_dec sender (a_council A)) as [->|]; [right; left; right; eauto|]. right; right. repeat split; congruence. }
  destruct G as [(id & ->)|[G|(N1 & N2 & N3)]].
  - pose proof HX as HX0. apply (WorldProofs.ctl_call A HA _ _ _ _ _ _ _ _ _ HC (wi_of _ _ HW)) in HX0.
    exists n, (set_ctl w s'), subs. split; [lia|]. remember (CExecuteActions id) as cm eqn:EM. destruct HX0; try discriminate EM;
      try (match goal with Q : creates _ |- _ => rewrite EM in Q; destruct Q end);
      try (match goal with Q : _ \/ _ |- _ => destruct Q as [Q|(? & Q & _)]; rewrite EM in Q; discriminate Q end).
    injection EM as ->. subst sender.
    assert (T : turn Out A w e ctl_addr (CExecuteActions id) (set_ctl w s') subs).
    { eapply tu_actions; try eassumption; try reflexivity. split; [reflexivity|]. split; [reflexivity|]. split; [reflexivity|]. split; [assumption|reflexivity]. }
    split; [exact T|]. split; [eexists; exact HG|].
    cbn [ctl_execute] in HX. unfold execute_actions in HX. apply bind_ok in HX. destruct HX as (u & _ & HX). apply bind_ok in HX. destruct HX as (p' & Hp' & HX).
    match goal with Q : oget _ id = Some p |- _ => rename Q into HP end. rewrite HP in Hp'. injection Hp' as <-.
    apply Forall_forall. intros x Hx. right.
    destruct (actions_told _ _ HC _ _ _ _ _ (wi_of _ _ HW) HX _ Hx) as [[]|(a & Ha & HM)].
    exists id, p, a. split; [exact (HR _ eq_refl)|]. split; [|split; [exact Ha|exact HM]].
    match goal with Q : ct_proposals s' = _ |- _ => cbn [set_ctl w_ctl]; rewrite Q end. exact HP.
  - exists n, (set_ctl w s'), subs. split; [lia|]. pose proof HX as HX0. apply (WorldProofs.ctl_call A HA _ _ _ _ _ _ _ _ _ HC (wi_of _ _ HW)) in HX0.
    assert (Q : Forall (fun x => excused (set_ctl w s') (w_log w) (sm_msg x)) subs /\ ct_proposals s' = ct_proposals (w_ctl w) /\
      ct_enterprise s' = ct_enterprise (w_ctl w) /\ Forall (fun x => sm_reply x = ReplyNever /\ mild A (sm_msg x) /\ payment ctl_addr (sm_msg x) = []) subs).
    { destruct G as [->|(ch & -> & ->)].
      - split.
        + cbn [ctl_execute] in HX. unfold deploy_initial in HX. cb. rewrite HC in HX. destruct (dflt [] (ct_treasuries (w_ctl w))) as [|dd l]; cb; [constructor|].
          apply Forall_forall. intros y Hy. change (In y (map (fun d0 => plain (WasmExecute (a_outposts A) (ToOutposts (OpDeploy d0)) [])) (dd :: l))) in Hy.
          apply in_map_iff in Hy. destruct Hy as (z & <- & _). left. constructor.
        + remember CDeployInitial as cm eqn:EM. destruct HX0; try discriminate EM;
            try (match goal with Q : creates _ |- _ => rewrite EM in Q; destruct Q end). auto.
      - cbn [ctl_execute] in HX. unfold weights_changed in HX. rewrite HC in HX. cbn [bind wiring_of c_council] in HX. rewrite N.eqb_refl in HX. injection HX as <- <-.
        repeat split; constructor. }
    destruct Q as (Q1 & Q4 & Q5 & Q6). split.
    { apply tu_other; try assumption; try reflexivity. split; [reflexivity|]. split; [reflexivity|]. split; [reflexivity|]. split; [assumption|reflexivity]. }
    split; [eexists; exact HG|exact Q1].
  - destruct (ctl_turn Out A HA _ _ _ _ _ _ _ _ _ _ HW HX HG) as (n' & w1 & subs1 & L & T & G2). exists n', w1, subs1.
    split; [exact L|]. split; [exact T|]. split; [exact G2|]. exact (turn_excused _ _ _ _ _ _ T HF N1 N2 N3).
Qed.

(** * Everything delivered *)

Definition all_excused (w : world) : Prop := forall m before, sent_after (w_log w) ctl_addr m before -> excused w before m.
Definition job_excused (w : world) (j : job) : Prop :=
  match j with
  | JMsg s m => s = ctl_addr -> excused w (w_log w) m
  | JSubs self subs => self = ctl_addr -> fine subs /\ Forall (fun x => excused w (w_log w) (sm_msg x)) subs
  end.
Lemma fine_excused w j : job_excused w j -> match j with JSubs self subs => self = ctl_addr -> fine subs | JMsg _ _ => True end.
Proof. destruct j; [intros; exact I|]. intros H E. exact (proj1 (H E)). Qed.
Lemma subs_kept w w1 subs : kept w w1 -> log_grows w w1 -> Forall (fun x => excused w (w_log w) (sm_msg x)) subs ->
  Forall (fun x => excused w1 (w_log w1) (sm_msg x)) subs.
Proof. intros K L H. eapply Forall_impl; [|exact H]. intros x. cbn beta. apply excused_log; assumption. Qed.

Lemma noted_excused w w1 s m : all_excused w -> kept w w1 -> w_log w1 = (s, m) :: w_log w -> (s = ctl_addr -> excused w (w_log w) m) -> all_excused w1.
Proof.
  intros H K E HM y before Hy. rewrite E in Hy. apply sent_first in Hy. apply (excused_same w _ _ _ K). destruct Hy as [(E1 & ->)|Hy]; [|exact (H _ _ Hy)].
  injection E1 as -> ->. exact (HM eq_refl).
Qed.
Lemma same_excused w w1 : all_excused w -> kept w w1 -> w_log w1 = w_log w -> all_excused w1.
Proof. intros H K E m before Hm. rewrite E in Hm. exact (excused_same w _ _ _ K (H _ _ Hm)). Qed.

Lemma turn_log w e s m w1 subs1 : turn Out A w e s m w1 subs1 ->
  exists l, w_log w1 = map (fun gm => (ctl_addr, WasmExecute (a_governance A) (ToGovernance gm) [])) l ++ w_log w.
Proof. intros T. destruct T; match goal with H : stepped A _ _ ?l |- _ => exists l; apply H end. Qed.

Lemma go_excused n : forall (w : world) e j w' d, go n w e j = Ok (w', d) -> wired A w -> free_councils w -> all_excused w -> job_excused w j -> size w' < M64 ->
  all_excused w'.
Proof.
  induction n as [n IH] using lt_wf_ind. intros w e j w' d H HW HF HI HJ HS.
  pose proof (layer1 Out A HA _ _ _ _ _ _ H HW (fine_excused _ _ HJ) HS) as (LW & LK).
  destruct j as [s m|self [|x rest]].
  - destruct n as [|n]; [discriminate|].
    apply go_msg in H. destruct H as [(to & wm & coins & x & w1 & subs & d' & -> & _ & Hh & Hg)|(NE & Ho)].
    + destruct (start_wired A w s (WasmExecute to wm coins) x HW) as (W0 & K0 & S0).
      assert (LG : w_log (set_ext (note w s (WasmExecute to wm coins)) x) = (s, WasmExecute to wm coins) :: w_log w) by reflexivity.
      assert (F0 : free_councils (set_ext (note w s (WasmExecute to wm coins)) x)) by exact HF.
      pose proof (noted_excused _ _ _ _ HI K0 LG HJ) as I0.
      assert (R0 : forall id, to = ctl_addr -> wm = ToController (CExecuteActions id) -> In id (ran A (w_log (set_ext (note w s (WasmExecute to wm coins)) x)))).
      { intros id -> ->. unfold ran. rewrite LG. cbn [flat_map snd]. rewrite N.eqb_refl. left. reflexivity. }
      set (w0 := set_ext (note w s (WasmExecute to wm coins)) x) in *.
      pose proof (go_size _ _ _ _ _ _ _ _ Hg) as GS. pose proof (handle_log _ _ _ _ _ _ _ _ _ _ _ _ Hh) as HL.
      apply handle_cases in Hh. destruct Hh as [(-> & cm & s' & -> & He & -> & _)|HH].
      * destruct (ctl_excused _ _ _ _ _ _ _ _ _ _ W0 F0 He Hg) as (n' & w1 & subs1 & L & T & (d2 & G) & HM).
        { intros id ->. exact (R0 id eq_refl eq_refl). }
        pose proof (go_size _ _ _ _ _ _ _ _ G) as GS1.
        pose proof T as TW. apply turn_wired in TW; [|assumption|lia]. destruct TW as (W1 & K1 & F1).
        pose proof (turn_free _ _ _ _ _ _ _ _ T F0) as FC1. destruct (turn_log _ _ _ _ _ _ T) as (l & EL).
        refine (IH n' ltac:(lia) _ _ _ _ _ G W1 FC1 _ (fun _ => conj F1 HM) HS).
        intros m before Hm. rewrite EL in Hm. apply sent_apart in Hm. destruct Hm as [Hm|Hm].
        { apply in_map_iff in Hm. destruct Hm as (gm & E & _). injection E as <-. left. constructor. }
        exact (excused_same w0 _ _ _ K1 (I0 _ _ Hm)).
      * destruct HH as [(-> & gm & g & -> & He & -> & ->)|HH].
        -- apply go_nil in Hg. destruct Hg as [-> _].
           exact (noted_excused _ _ _ _ HI LK (eq_trans HL LG) HJ).
        -- assert (W1 : wired A w1 /\ kept w0 w1 /\ w_ctl w1 = w_ctl w0 /\ to <> ctl_addr).
           { destruct HH as [(-> & mm & s' & outs & -> & He & -> & -> & _)|(N1 & N2 & N3 & Q)].
             - destruct (member_wired A w0 s' W0) as (Q1 & Q2). split; [exact Q1|]. split; [exact Q2|]. split; [reflexivity|apply (member_not_ctl A HA)].
             - destruct (quiet_wired A _ _ Q W0) as (Q1 & Q2). split; [exact Q1|]. split; [exact Q2|]. split; [apply Q|exact N1]. }
           destruct W1 as (W1 & K1 & EC & NC).
           assert (F1 : free_councils w1) by (unfold free_councils; rewrite EC; exact F0).
           refine (IH n ltac:(lia) _ _ _ _ _ Hg W1 F1 (same_excused _ _ I0 K1 HL) _ HS). intros E. contradiction.
    + pose proof (other_quiet _ _ _ _ _ _ _ _ Ho) as Q. assert (EL : w_log w' = w_log (note w s m)) by apply Q.
      exact (noted_excused _ _ _ _ HI LK EL HJ).
  - apply go_nil in H. destruct H as [-> _]. exact HI.
  - apply go_cons in H. destruct H as (n' & -> & H).
    assert (JR : forall wb, kept w wb -> log_grows w wb -> job_excused wb (JSubs self rest)).
    { intros wb K L E. destruct (HJ E) as (Q1 & Q2). split; [exact (Forall_inv_tail Q1)|]. exact (subs_kept _ _ _ K L (Forall_inv_tail Q2)). }
    assert (JM : job_excused w (JMsg self (sm_msg x))).
    { intros E. destruct (HJ E) as (_ & Q). exact (Forall_inv Q). }
    assert (HR : forall wa id r wb more wc dc wd dd, sm_reply x = ReplySuccess id \/ sm_reply x = ReplyAlways id ->
      kept w wa -> log_grows w wa ->
      wired A wa -> free_councils wa -> all_excused wa -> on_reply Out A wa e self id r = Ok (wb, more) -> go n' wb e (JSubs self more) = Ok (wc, dc) ->
      go n' wc e (JSubs self rest) = Ok (wd, dd) -> size wd < M64 -> all_excused wd).
    { intros wa id r wb more wc dc wd dd HD Ka La Wa Fa Ia Hr Hg1 Hg2 Sd. pose proof (go_size _ _ _ _ _ _ _ _ Hg2) as S2.
      pose proof (reply_log _ _ _ _ _ _ _ _ _ Hr) as RL. destruct (go_log _ _ _ _ _ _ _ _ Hg1) as (l1 & L1).
      assert (P : wired A wb /\ free_councils wb /\ kept wa wb /\ job_excused wb (JSubs self more)).
      { apply reply_cases in Hr. destruct Hr as [(-> & s' & Hr & ->)|(NC & Q)].
        - assert (id = 3) as ->. { destruct (HJ eq_refl) as (Q & _). pose proof (Forall_inv Q) as Q'. cbn beta in Q'. destruct HD as [E|E], Q' as [F|F]; congruence. }
          apply reply_3 in Hr. destruct Hr as [-> ->]. destruct (scene_wired A wa (w_ctl wa) (conj eq_refl eq_refl) Wa) as (Wb & Kb).
          split; [exact Wb|]. split; [exact Fa|]. split; [exact Kb|]. split; constructor.
        - destruct (quiet_wired A _ _ Q Wa) as (Wb & Kb). assert (EC : w_ctl wb = w_ctl wa) by apply Q.
          split; [exact Wb|]. split; [unfold free_councils; rewrite EC; exact Fa|]. split; [exact Kb|]. intros E. contradiction. }
      destruct P as (Wb & Fb & Kb & Jb).
      pose proof (layer1 Out A HA _ _ _ _ _ _ Hg1 Wb (fine_excused _ _ Jb) ltac:(lia)) as (Wc & Kc).
      pose proof (go_free Out A HA _ _ _ _ _ _ Hg1 Wb Fb (fine_excused _ _ Jb) ltac:(lia)) as Fc.
      pose proof (IH n' ltac:(lia) _ _ _ _ _ Hg1 Wb Fb (same_excused _ _ Ia Kb RL) Jb ltac:(lia)) as Ic.
      refine (IH n' ltac:(lia) _ _ _ _ _ Hg2 Wc Fc Ic (JR _ (kept_trans _ _ _ Ka (kept_trans _ _ _ Kb Kc)) _) Sd).
      destruct La as (l & La). exists (l1 ++ l). rewrite L1, RL, La, app_assoc. reflexivity. }
    destruct H as [(w1 & d1 & H1 & [(_ & H2)|(id & w2 & more & w3 & d3 & E & H2 & H3 & H4)])|(id & w2 & more & w3 & d3 & _ & E & H2 & H3 & H4)].
    + pose proof (go_size _ _ _ _ _ _ _ _ H2).
      pose proof (layer1 Out A HA _ _ _ _ _ _ H1 HW I ltac:(lia)) as (W1 & K1).
      pose proof (go_free Out A HA _ _ _ _ _ _ H1 HW HF I ltac:(lia)) as F1.
      pose proof (IH n' ltac:(lia) _ _ _ _ _ H1 HW HF HI JM ltac:(lia)) as I1.
      exact (IH n' ltac:(lia) _ _ _ _ _ H2 W1 F1 I1 (JR _ K1 (go_log _ _ _ _ _ _ _ _ H1)) HS).
    + assert (Z1 : size w1 < M64).
      { pose proof (go_size _ _ _ _ _ _ _ _ H3) as G3. pose proof (go_size _ _ _ _ _ _ _ _ H4) as G4. pose proof (reply_log _ _ _ _ _ _ _ _ _ H2) as RL.
        assert (size w2 = size w1) by (unfold size; rewrite RL; reflexivity). lia. }
      pose proof (layer1 Out A HA _ _ _ _ _ _ H1 HW I Z1) as (W1 & K1).
      pose proof (go_free Out A HA _ _ _ _ _ _ H1 HW HF I Z1) as F1.
      pose proof (IH n' ltac:(lia) _ _ _ _ _ H1 HW HF HI JM Z1) as I1.
      exact (HR _ _ _ _ _ _ _ _ _ E K1 (go_log _ _ _ _ _ _ _ _ H1) W1 F1 I1 H2 H3 H4 HS).
    + exact (HR _ _ _ _ _ _ _ _ _ (or_intror E) (kept_refl w) (ex_intro _ [] eq_refl) HW HF HI H2 H3 H4 HS).
Qed.

Lemma run_excused ts : forall w : world, wired A w -> free_councils w -> all_excused w -> size (world_run Out A w ts) < M64 -> all_excused (world_run Out A w ts).
Proof.
  induction ts as [|t ts IH]; intros w HW HF HI HS; [exact HI|].
  change (world_run Out A w (t :: ts)) with (world_run Out A (world_step Out A w t) ts) in *. pose proof (run_size Out A ts (world_step Out A w t)) as S1.
  destruct (WorldRun.step_cases Out A w t) as [E|(d & Hd & H)]; [rewrite E in *; apply IH; assumption|].
  pose proof (layer1 Out A HA _ _ _ _ _ _ H HW I ltac:(lia)) as (W1 & K1). pose proof (go_free Out A HA _ _ _ _ _ _ H HW HF I ltac:(lia)) as F1.
  refine (IH _ W1 F1 (go_excused _ _ _ _ _ _ H HW HF HI _ ltac:(lia)) HS).
  intros E. exfalso. rewrite E in Hd. revert Hd. unfold is_dao, dao_addrs. cbn. rewrite N.eqb_refl, ?Bool.orb_true_r. discriminate.
Qed.

(** * The enterprise contract *)

(** what the enterprise contract sends, the controller told it before *)
Definition told (l : list (addr * cosmos_msg)) (m : cosmos_msg) : Prop :=
  exists em coins, In (ctl_addr, WasmExecute en_addr (ToEnterprise em) coins) l /\ yields A em m.
Lemma told_grow l l1 m : told l m -> told (l1 ++ l) m.
Proof. intros (em & coins & H & Y). exists em, coins. split; [apply in_or_app; right; exact H|exact Y]. Qed.

Definition all_told (w : world) : Prop := forall m before, sent_after (w_log w) en_addr m before -> told before m.
Definition flagged (w : world) : Prop := w_upgraded w = true -> exists m before, sent_after (w_log w) en_addr m before /\ recodes A m = true.
Definition obeys (w : world) : Prop := en_wired A (w_enterprise w) /\ all_told w /\ flagged w.
Definition job_told (w : world) (j : job) : Prop :=
  match j with
  | JMsg s m => s = en_addr -> told (w_log w) m
  | JSubs self subs => self = en_addr -> Forall (fun x => told (w_log w) (sm_msg x)) subs
  end.

Lemma enterprise_yields o e s m e' subs : eo_self o = en_addr -> enterprise_execute o e s m = Ok (e', subs) -> Forall (fun x => yields A m (sm_msg x)) subs.
Proof.
  intros ES H. destruct m; cbn [enterprise_execute] in H.
  - apply bind_ok in H. destruct H as (e1 & _ & H). injection H as <- <-. constructor.
  - apply bind_ok in H. destruct H as (e1 & _ & H). injection H as <- <-. constructor.
  - unfold upgrade_dao in H. apply bind_ok in H. destruct H as (y0 & _ & H). apply bind_ok in H. destruct H as (y & Hy & H).
    apply bind_ok in H. destruct H as (mm & _ & H). apply bind_ok in H. destruct H as (vs & _ & H). injection H as <- <-.
    apply Forall_forall. intros x Hx. apply in_map_iff in Hx. destruct Hx as (z & <- & _). cbn. rewrite ES. eauto.
  - unfold set_attestation in H. apply bind_ok in H. destruct H as (y & Hy & H). apply bind_ok in H. destruct H as (v & _ & H). injection H as <- <-.
    constructor; [cbn; eauto|constructor].
  - apply bind_ok in H. destruct H as (e1 & _ & H). injection H as <- <-. constructor.
  - unfold en_execute_msgs in H. apply bind_ok in H. destruct H as (y & _ & H). apply bind_ok in H. destruct H as (l & HP & H). injection H as <- <-.
    apply parsed in HP. apply Forall_forall. intros x Hx. apply in_map_iff in Hx. destruct Hx as (z & <- & Hz). cbn. apply given_in. rewrite HP. exact Hz.
  - apply bind_ok in H. destruct H as (e1 & _ & H). injection H as <- <-. constructor.
Qed.

Lemma handle_obeys n (w : world) e s to m coins w1 subs d : handle Out A n w e s to m coins = Ok (w1, subs, d) -> en_wired A (w_enterprise w) ->
  en_wired A (w_enterprise w1) /\ w_upgraded w1 = w_upgraded w /\
  (to = en_addr -> s = ctl_addr /\ exists em, m = ToEnterprise em /\ Forall (fun x => yields A em (sm_msg x)) subs).
Proof.
  intros H HW. pose proof (handle_cases Out A _ _ _ _ _ _ _ _ _ _ H) as HC.
  split.
  { destruct HC as [(_ & cm & s' & _ & _ & -> & _)|[(_ & gm & g & _ & _ & -> & _)|[(_ & mm & s' & outs & _ & _ & -> & _)|(_ & _ & _ & Q)]]]; try exact HW. apply Q. exact HW. }
  clear HC.
  assert (AP : NoDup [en_addr; ctl_addr; a_governance A; a_membership A; a_council A; a_funds A; a_treasury A; a_outposts A] -> 
     en_addr <> ctl_addr /\ en_addr <> a_governance A /\ en_addr <> a_membership A /\ en_addr <> a_council A /\ en_addr <> a_funds A /\ en_addr <> a_treasury A).
  { intros N. inversion N as [|? ? N1 _]; subst. cbn in N1. repeat split; intros E; apply N1; rewrite E; tauto. }
  specialize (AP HA). destruct AP as (A1 & A2 & A3 & A4 & A5 & A6).
  unfold handle in H.
  destruct (N.eqb_spec to ctl_addr) as [->|_].
  { destruct m; try discriminate. apply bind_ok in H. destruct H as ((s' & l) & _ & H). injection H as <- _ _. split; [reflexivity|]. intros E. congruence. }
  destruct (N.eqb_spec to (a_governance A)) as [->|_].
  { destruct m; try discriminate. apply bind_ok in H. destruct H as ((s' & l) & _ & H). injection H as <- _ _. split; [reflexivity|]. intros E. congruence. }
  destruct (N.eqb_spec to (a_membership A)) as [->|_].
  { destruct m; try discriminate. apply bind_ok in H. destruct H as ((s' & l) & _ & H). injection H as <- _ _. split; [reflexivity|]. intros E. congruence. }
  destruct (N.eqb_spec to (a_council A)) as [->|_].
  { destruct m; try discriminate. apply bind_ok in H. destruct H as ((s' & l) & _ & H). injection H as <- _ _. split; [reflexivity|]. intros E. congruence. }
  destruct (N.eqb_spec to (a_funds A)) as [->|_].
  { destruct m; try discriminate. apply bind_ok in H. destruct H as ((s' & l) & _ & H). injection H as <- _ _. split; [reflexivity|]. intros E. congruence. }
  destruct (N.eqb_spec to (a_treasury A)) as [->|_].
  { destruct m; try discriminate. apply bind_ok in H. destruct H as ((s' & l) & _ & H). injection H as <- _ _. split; [reflexivity|]. intros E. congruence. }
  destruct (N.eqb_spec to en_addr) as [->|NE].
  { destruct m; try discriminate. apply bind_ok in H. destruct H as ((s' & l) & Hx & H). injection H as <- <- _. split; [reflexivity|]. intros _.
    destruct HW as (HF & att & HC). pose proof (enterprise_settings _ _ _ _ _ _ _ Hx HF HC) as (_ & _ & _ & _ & _ & ->). split; [reflexivity|].
    eexists. split; [reflexivity|]. refine (enterprise_yields _ _ _ _ _ _ _ Hx). reflexivity. }
  destruct (to =? a_outposts A).
  { destruct m; try discriminate. apply bind_ok in H. destruct H as ((s' & l) & _ & H). injection H as <- _ _. split; [reflexivity|]. intros E. congruence. }
  apply bind_ok in H. destruct H as ([[? ?] ?] & _ & H). injection H as <- _ _. split; [reflexivity|]. intros E. congruence.
Qed.

Lemma reply_obeys (w : world) e self id r w1 more : on_reply Out A w e self id r = Ok (w1, more) -> en_wired A (w_enterprise w) ->
  en_wired A (w_enterprise w1) /\ w_upgraded w1 = w_upgraded w /\ (self = en_addr -> more = []).
Proof.
  intros H HW. split.
  { pose proof (reply_cases Out A _ _ _ _ _ _ _ H) as [(_ & s' & _ & ->)|(_ & Q)]; [exact HW|apply Q; exact HW]. }
  pose proof (enterprise_not_ctl A HA) as N.
  unfold on_reply in H. destruct (N.eqb_spec self ctl_addr) as [->|_].
  { apply bind_ok in H. destruct H as ((s' & l) & _ & H). injection H as <- <-. split; [reflexivity|]. intros E. congruence. }
  destruct (N.eqb_spec self en_addr) as [->|NE].
  { apply bind_ok in H. destruct H as ((s' & l) & Hr & H). injection H as <- <-. split; [reflexivity|]. intros _.
    unfold enterprise_reply in Hr. destruct (id =? 1); [|discriminate]. destruct r as [[a|]|]; try discriminate.
    apply bind_ok in Hr. destruct Hr as (a' & _ & Hr). apply bind_ok in Hr. destruct Hr as (c & _ & Hr). injection Hr as _ <-. reflexivity. }
  destruct (self =? a_treasury A).
  { apply bind_ok in H. destruct H as (t & _ & H). injection H as <- <-. split; reflexivity. }
  destruct (is_dao A self); [discriminate|]. apply bind_ok in H. destruct H as ((x & l) & _ & H). injection H as <- <-. split; [reflexivity|]. intros E. contradiction.
Qed.

Lemma other_flags (w : world) e s m w1 d : other_msg Out A w e s m = Ok (w1, d) -> w_upgraded w1 = w_upgraded w \/ (s = en_addr /\ recodes A m = true).
Proof.
  intros H. destruct m; cbn [other_msg recodes] in *;
    try (apply bind_ok in H; destruct H as ((x & y) & _ & H); injection H as <- _; left; reflexivity);
    match type of H with (if ?b then _ else _) = _ => destruct b; [|apply bind_ok in H; destruct H as ((x & y) & _ & H); injection H as <- _; left; reflexivity] end;
    apply bind_ok in H; destruct H as (u & Hu & _); apply guard_ok in Hu; apply N.eqb_eq in Hu; auto.
Qed.

Lemma grown_flag w w1 : flagged w -> w_upgraded w1 = w_upgraded w -> log_grows w w1 -> flagged w1.
Proof. intros H E (l & EL) Q. rewrite E in Q. destruct (H Q) as (m & b & (later & S) & R). exists m, b. split; [|exact R]. exists (l ++ later). rewrite EL, S, app_assoc. reflexivity. Qed.
Lemma noted_told w w1 s m : all_told w -> w_log w1 = (s, m) :: w_log w -> (s = en_addr -> told (w_log w) m) -> all_told w1.
Proof.
  intros H E HM y before Hy. rewrite E in Hy. apply sent_first in Hy. destruct Hy as [(E1 & ->)|Hy]; [|exact (H _ _ Hy)]. injection E1 as -> ->. exact (HM eq_refl).
Qed.

Lemma go_obeys n : forall (w : world) e j w' d, go n w e j = Ok (w', d) -> obeys w -> job_told w j -> obeys w'.
Proof.
  induction n as [|n IH]; intros w e j w' d H (HW & HT & HF) HJ; [destruct j; discriminate|].
  destruct j as [s m|self [|x rest]].
  - apply go_msg in H. destruct H as [(to & wm & coins & x & w1 & subs & d' & -> & _ & Hh & Hg)|(_ & Ho)].
    + pose proof (handle_log _ _ _ _ _ _ _ _ _ _ _ _ Hh) as HL. pose proof (handle_obeys _ _ _ _ _ _ _ _ _ _ Hh HW) as (W1 & F1 & T1).
      assert (EL : w_log w1 = (s, WasmExecute to wm coins) :: w_log w) by exact HL.
      apply (IH _ _ _ _ _ Hg).
      * split; [exact W1|]. split; [exact (noted_told _ _ _ _ HT EL HJ)|]. apply (grown_flag w); [exact HF|exact F1|exists [(s, WasmExecute to wm coins)]; exact EL].
      * intros ->. destruct (T1 eq_refl) as (-> & em & -> & Y). eapply Forall_impl; [|exact Y]. intros y Hy. exists em, coins. split; [rewrite EL; left; reflexivity|exact Hy].
    + pose proof (other_quiet _ _ _ _ _ _ _ _ Ho) as Q. assert (EL : w_log w' = (s, m) :: w_log w) by apply Q.
      split; [apply Q; exact HW|]. split; [exact (noted_told _ _ _ _ HT EL HJ)|]. destruct (other_flags _ _ _ _ _ _ Ho) as [E|(-> & R)].
      * apply (grown_flag w); [exact HF|exact E|exists [(s, m)]; exact EL].
      * intros _. exists m, (w_log w). split; [exists []; exact EL|exact R].
  - apply go_nil in H. destruct H as [-> _]. split; [|split]; assumption.
  - apply go_cons in H. destruct H as (n' & E & H). injection E as <-.
    assert (JR : forall wb, log_grows w wb -> job_told wb (JSubs self rest)).
    { intros wb (l & L) E. rewrite L. eapply Forall_impl; [|exact (Forall_inv_tail (HJ E))]. intros y. apply told_grow. }
    assert (JM : job_told w (JMsg self (sm_msg x))) by (intros E; exact (Forall_inv (HJ E))).
    assert (HR : forall wa id r wb more wc dc wd dd, log_grows w wa -> obeys wa -> on_reply Out A wa e self id r = Ok (wb, more) ->
      go n wb e (JSubs self more) = Ok (wc, dc) -> go n wc e (JSubs self rest) = Ok (wd, dd) -> obeys wd).
    { intros wa id r wb more wc dc wd dd (l & L) (Wa & Ta & Fa) Hr Hg1 Hg2. pose proof (reply_log _ _ _ _ _ _ _ _ _ Hr) as RL.
      pose proof (reply_obeys _ _ _ _ _ _ _ Hr Wa) as (Wb & Ub & Mb). destruct (go_log _ _ _ _ _ _ _ _ Hg1) as (l1 & L1).
      refine (IH _ _ _ _ _ Hg2 (IH _ _ _ _ _ Hg1 _ _) _).
      - split; [exact Wb|]. split; [intros m b Hm; rewrite RL in Hm; exact (Ta _ _ Hm)|]. apply (grown_flag wa); [exact Fa|exact Ub|exists []; exact RL].
      - intros E. rewrite (Mb E). constructor.
      - apply JR. exists (l1 ++ l). rewrite L1, RL, L, app_assoc. reflexivity. }
    destruct H as [(w1 & d1 & H1 & [(_ & H2)|(id & w2 & more & w3 & d3 & _ & H2 & H3 & H4)])|(id & w2 & more & w3 & d3 & _ & _ & H2 & H3 & H4)].
    + refine (IH _ _ _ _ _ H2 (IH _ _ _ _ _ H1 _ JM) (JR _ (go_log _ _ _ _ _ _ _ _ H1))). split; [|split]; assumption.
    + refine (HR _ _ _ _ _ _ _ _ _ (go_log _ _ _ _ _ _ _ _ H1) (IH _ _ _ _ _ H1 _ JM) H2 H3 H4). split; [|split]; assumption.
    + refine (HR _ _ _ _ _ _ _ _ _ (ex_intro _ [] eq_refl) _ H2 H3 H4). split; [|split]; assumption.
Qed.

Lemma run_obeys ts : forall w : world, obeys w -> obeys (world_run Out A w ts).
Proof.
  induction ts as [|t ts IH]; intros w HI; [exact HI|].
  change (world_run Out A w (t :: ts)) with (world_run Out A (world_step Out A w t) ts). apply IH.
  destruct (WorldRun.step_cases Out A w t) as [E|(d & Hd & H)]; [rewrite E in *; exact HI|].
  apply (go_obeys _ _ _ _ _ _ H HI). intros E. exfalso. rewrite E in Hd. revert Hd. unfold is_dao, dao_addrs. cbn. rewrite N.eqb_refl, ?Bool.orb_true_r. discriminate.
Qed.

(** * Upgrades to the code of this repository *)

Section Own.
Hypothesis HO : own_versions Out.

Definition own_migration (m : cosmos_msg) : Prop := exists code b, m = WasmMigrate en_addr code b /\ forall x, x_code Out x code = Some KEnterprise.
Definition yields_own (em : enterprise_msg) (m : cosmos_msg) : Prop :=
  match em with EnUpgradeDao _ _ => own_migration m | _ => yields A em m end.
Definition told_own (l : list (addr * cosmos_msg)) (m : cosmos_msg) : Prop :=
  exists em coins, In (ctl_addr, WasmExecute en_addr (ToEnterprise em) coins) l /\ yields_own em m.
Lemma told_own_grow l l1 m : told_own l m -> told_own (l1 ++ l) m.
Proof. intros (em & coins & H & Y). exists em, coins. split; [apply in_or_app; right; exact H|exact Y]. Qed.

Lemma loop_from (P : version_info -> Prop) page : (forall s l, page s = Ok l -> Forall P l) -> forall fuel target last acc vs,
  versions_loop fuel page target last acc = Ok vs -> Forall P acc -> Forall P vs.
Proof.
  intros HP.
  assert (T : forall target l acc, Forall P l -> Forall P acc -> Forall P (fst (take_versions target l acc))).
  { intros target. induction l as [|v l IH]; intros acc Hl Ha; cbn [take_versions]; [exact Ha|]. destruct (target <? vi_version v); [exact Ha|].
    assert (Q : Forall P (acc ++ [v])) by (apply Forall_app; split; [exact Ha|constructor; [exact (Forall_inv Hl)|constructor]]).
    destruct (vi_version v =? target); [exact Q|]. apply IH; [exact (Forall_inv_tail Hl)|exact Q]. }
  induction fuel as [|n IH]; intros target last acc vs H Ha; cbn [versions_loop] in H; [discriminate|].
  apply bind_ok in H. destruct H as (l & Hl & H). destruct (rev l) as [|v r]; [injection H as <-; exact Ha|].
  pose proof (T target l acc (HP _ _ Hl) Ha) as Q. destruct (take_versions target l acc) as [acc' stop]. cbn [fst] in Q.
  destruct stop; [injection H as <-; exact Q|]. exact (IH _ _ _ _ H Q).
Qed.

Lemma yields_own_of n (w : world) e s m e' subs : enterprise_execute (en_oracle_of Out A n w) e s m = Ok (e', subs) -> Forall (fun x => yields_own m (sm_msg x)) subs.
Proof.
  intros H. pose proof (enterprise_yields (en_oracle_of Out A n w) _ _ _ _ _ eq_refl H) as Y. destruct m; try exact Y.
  cbn [enterprise_execute] in H. unfold upgrade_dao in H. apply bind_ok in H. destruct H as (y0 & _ & H). apply bind_ok in H. destruct H as (y & Hy & H).
  apply bind_ok in H. destruct H as (mm & _ & H). apply bind_ok in H. destruct H as (vs & Hvs & H). injection H as _ <-.
  unfold versions_between in Hvs. apply (loop_from (fun v => forall x, x_code Out x (vi_enterprise v) = Some KEnterprise)) in Hvs; [| |constructor].
  - apply Forall_forall. intros x Hx. apply in_map_iff in Hx. destruct Hx as (z & <- & Hz). cbn [plain sm_msg]. eexists _, _. split; [reflexivity|].
    exact (proj1 (Forall_forall _ _) Hvs _ Hz).
  - intros st l Hl. eapply Forall_impl; [|exact (ov_list _ HO _ _ _ _ _ Hl)]. intros vi Hv x. exact (ov_codes _ HO _ _ _ _ Hv).
Qed.

Definition all_told_own (w : world) : Prop := forall m before, sent_after (w_log w) en_addr m before -> told_own before m.
Definition flagged_else (w : world) : Prop := w_upgraded w = true ->
  exists m before, sent_after (w_log w) en_addr m before /\ recodes A m = true /\ ~ own_migration m.
Definition follows (w : world) : Prop := en_wired A (w_enterprise w) /\ typed w /\ all_told_own w /\ flagged_else w.
Definition job_own (w : world) (j : job) : Prop :=
  match j with
  | JMsg s m => s = en_addr -> told_own (w_log w) m
  | JSubs self subs => self = en_addr -> Forall (fun x => told_own (w_log w) (sm_msg x)) subs
  end.

Definition same_kind (s s' : member_state) : Prop :=
  match s, s' with MToken _, MToken _ | MDenom _, MDenom _ | MNft _, MNft _ | MMultisig _, MMultisig _ => True | _, _ => False end.
Lemma kind_kept o s e sender coins m s' outs : member_execute o s e sender coins m = Ok (s', outs) -> same_kind s s'.
Proof. unfold member_execute. destruct s, m; try discriminate; intros H; apply bind_ok in H; destruct H as ((? & ?) & _ & H); injection H as <- _; exact I. Qed.
Lemma typed_kind (w w1 : world) : typed w -> en_type (w_enterprise w1) = en_type (w_enterprise w) -> same_kind (w_member w) (w_member w1) ->
  same_kind (w_council w) (w_council w1) -> typed w1.
Proof.
  intros (T & c & C) E K1 K2. unfold typed. rewrite E. split.
  - destruct (en_type (w_enterprise w)), (w_member w), (w_member w1); try contradiction; exact I.
  - rewrite C in K2. destruct (w_council w1); try contradiction. eauto.
Qed.
Lemma kind_refl s : same_kind s s. Proof. destruct s; exact I. Qed.
Lemma type_kept e v e' out : en_handle e v = Ok (e', out) -> en_wired A e -> en_type e' = en_type e.
Proof.
  intros H (F & att & C). assert (O : en_ok e) by (unfold en_ok; rewrite F, C; reflexivity).
  exact (proj1 (proj2 (proj2 (en_wired_step _ _ _ _ _ O C H)))).
Qed.

Lemma handle_typed n (w : world) e s to m coins w1 subs d : handle Out A n w e s to m coins = Ok (w1, subs, d) -> en_wired A (w_enterprise w) -> typed w -> typed w1.
Proof.
  intros H HW T. apply handle_all in H.
  assert (ALL : forall k, others_same w w1 k -> k <> 2 -> k <> 3 -> k <> 6 -> typed w1).
  { intros k (_ & _ & E2 & E3 & _ & _ & E6 & _) K2 K3 K6. apply (typed_kind w); [exact T|rewrite E6 by exact K6; reflexivity|rewrite E2 by exact K2; apply kind_refl|
      rewrite E3 by exact K3; apply kind_refl]. }
  repeat match type of H with _ \/ _ => destruct H as [H|H] end;
    try (destruct H as (_ & O & _); exact (ALL _ O ltac:(discriminate) ltac:(discriminate) ltac:(discriminate))).
  - destruct H as (_ & (_ & _ & _ & E3 & _ & _ & E6 & _) & mm & outs & _ & H). apply (typed_kind w); [exact T|rewrite E6 by discriminate; reflexivity|
      exact (kind_kept _ _ _ _ _ _ _ _ H)|rewrite E3 by discriminate; apply kind_refl].
  - destruct H as (_ & (_ & _ & E2 & _ & _ & _ & E6 & _) & mm & outs & _ & H). apply (typed_kind w); [exact T|rewrite E6 by discriminate; reflexivity|
      rewrite E2 by discriminate; apply kind_refl|exact (kind_kept _ _ _ _ _ _ _ _ H)].
  - destruct H as (_ & (_ & _ & E2 & E3 & _) & em & _ & H). apply (typed_kind w); [exact T|exact (type_kept _ (EvCall _ _ _) _ _ H HW)|
      rewrite E2 by discriminate; apply kind_refl|rewrite E3 by discriminate; apply kind_refl].
  - destruct H as (_ & O). exact (ALL _ O ltac:(discriminate) ltac:(discriminate) ltac:(discriminate)).
Qed.

Lemma reply_typed (w : world) e self id r w1 more : on_reply Out A w e self id r = Ok (w1, more) -> en_wired A (w_enterprise w) -> typed w -> typed w1.
Proof.
  intros H HW T. apply reply_all in H. destruct H as [((_ & _ & E2 & E3 & _ & _ & E6 & _) & _)|[((_ & _ & E2 & E3 & _) & H)|(_ & _ & E2 & E3 & _ & _ & E6 & _)]].
  - apply (typed_kind w); [exact T|rewrite E6 by discriminate; reflexivity|rewrite E2 by discriminate; apply kind_refl|rewrite E3 by discriminate; apply kind_refl].
  - apply (typed_kind w); [exact T|exact (type_kept _ (EvReply _ _) _ _ H HW)|rewrite E2 by discriminate; apply kind_refl|rewrite E3 by discriminate; apply kind_refl].
  - apply (typed_kind w); [exact T|rewrite E6 by discriminate; reflexivity|rewrite E2 by discriminate; apply kind_refl|rewrite E3 by discriminate; apply kind_refl].
Qed.

Lemma own_quiet (w : world) code w1 : en_wired A (w_enterprise w) -> typed w -> (forall x, x_code Out x code = Some KEnterprise) -> migrate_to Out A w en_addr code = Ok w1 -> w1 = w.
Proof.
  intros (_ & att & HC) (HT & c & HL) HX H. unfold migrate_to in H.
  assert (S : same_code Out A w en_addr code = true) by (unfold same_code; rewrite HX; cbn; apply N.eqb_refl).
  unfold plain_migration in H. rewrite S, N.eqb_refl in H. cbn [andb negb] in H. rewrite ?Bool.andb_false_r in H.
  apply bind_ok in H. destruct H as (subs & HM & H).
  match type of H with (if ?b then _ else _) = _ => assert (B : b = true); [|rewrite B in H; injection H as <-; reflexivity] end.
  unfold enterprise_migrate in HM. apply bind_ok in HM. destruct HM as (v & Hv & HM). apply bind_ok in HM. destruct HM as (cs & Hcs & HM).
  rewrite HC in Hcs. injection Hcs as <-. injection HM as <-. destruct (ov_one _ HO _ _ _ _ Hv) as (V1 & V2 & V3 & V4 & V5 & V6).
  cbn [forallb plain sm_msg wiring_of c_outposts c_funds c_membership c_council].
  assert (NC : NoDup [en_addr; ctl_addr; a_governance A; a_membership A; a_council A; a_funds A; a_treasury A; a_outposts A]) by exact HA.
  repeat match goal with Q : NoDup (_ :: _) |- _ => inversion Q; clear Q; subst end. cbn [In] in *.
  assert (D : forall a b, a <> b -> (a =? b) = false) by (intros; apply N.eqb_neq; assumption).
  unfold same_code. rewrite V1, V2, V6. cbn [kind_at]. rewrite ?N.eqb_refl, HL.
  rewrite (D (a_outposts A) (a_governance A)), (D (a_outposts A) en_addr), (D (a_funds A) (a_governance A)), (D (a_funds A) en_addr),
    (D (a_membership A) (a_governance A)), (D (a_membership A) en_addr), (D (a_council A) (a_governance A)), (D (a_council A) en_addr), (D (a_council A) (a_membership A));
    try (intros E; tauto).
  destruct (en_type (w_enterprise w)), (w_member w) eqn:EM; try contradiction; rewrite ?V3, ?V4, ?V5, ?V6; cbn [kind_at]; rewrite ?N.eqb_refl, ?EM; reflexivity.
Qed.

Lemma other_own (w : world) e s m w1 d : other_msg Out A w e s m = Ok (w1, d) -> en_wired A (w_enterprise w) -> typed w ->
  typed w1 /\ (w_upgraded w1 = w_upgraded w \/ (s = en_addr /\ recodes A m = true /\ ~ own_migration m)).
Proof.
  intros H HW T.
  assert (TX : forall x, typed (set_ext w x)) by (intros x; exact T).
  assert (TU : typed (set_upgraded w)) by exact T.
  destruct m; cbn [other_msg recodes] in *; try (apply bind_ok in H; destruct H as ((x & y) & _ & H); injection H as <- _; split; [apply TX|left; reflexivity]).
  - match type of H with (if ?b then _ else _) = _ => destruct b; [|apply bind_ok in H; destruct H as ((x & y) & _ & H); injection H as <- _; split; [apply TX|left; reflexivity]] end.
    apply bind_ok in H. destruct H as (u & Hu & H). apply guard_ok in Hu. apply N.eqb_eq in Hu. subst s. apply bind_ok in H. destruct H as (w2 & HM & H). injection H as <- _.
    pose proof (migrate_cases Out A _ _ _ _ HM) as MC. split; [destruct MC; subst; assumption|].
    destruct MC as [->| ->]; [left; reflexivity|]. destruct (w_upgraded w) eqn:U; [left; reflexivity|]. right. split; [reflexivity|]. split; [reflexivity|].
    intros (code' & b & E & HX). injection E as -> -> _. apply (own_quiet w _ _ HW T HX) in HM. rewrite <- HM in U. discriminate U.
  - match type of H with (if ?b then _ else _) = _ => destruct b; [|apply bind_ok in H; destruct H as ((x & y) & _ & H); injection H as <- _; split; [apply TX|left; reflexivity]] end.
    apply bind_ok in H. destruct H as (u & Hu & H). apply guard_ok in Hu. apply N.eqb_eq in Hu. subst s. injection H as <- _.
    split; [exact TU|]. right. split; [reflexivity|]. split; [reflexivity|]. intros (code' & b & E & _). discriminate E.
Qed.

Lemma grown_else w w1 : flagged_else w -> w_upgraded w1 = w_upgraded w -> log_grows w w1 -> flagged_else w1.
Proof. intros H E (l & EL) Q. rewrite E in Q. destruct (H Q) as (m & b & (later & S) & R). exists m, b. split; [|exact R]. exists (l ++ later). rewrite EL, S, app_assoc. reflexivity. Qed.
Lemma noted_own w w1 s m : all_told_own w -> w_log w1 = (s, m) :: w_log w -> (s = en_addr -> told_own (w_log w) m) -> all_told_own w1.
Proof.
  intros H E HM y before Hy. rewrite E in Hy. apply sent_first in Hy. destruct Hy as [(E1 & ->)|Hy]; [|exact (H _ _ Hy)]. injection E1 as -> ->. exact (HM eq_refl).
Qed.

Lemma handle_own n (w : world) e s m coins w1 subs d : handle Out A n w e s en_addr m coins = Ok (w1, subs, d) ->
  exists em, m = ToEnterprise em /\ Forall (fun x => yields_own em (sm_msg x)) subs.
Proof.
  intros H. apply handle_all in H.
  assert (NC : NoDup [en_addr; ctl_addr; a_governance A; a_membership A; a_council A; a_funds A; a_treasury A; a_outposts A]) by exact HA.
  inversion NC as [|? ? N1 _]; subst. cbn [In] in N1.
  repeat match type of H with _ \/ _ => destruct H as [H|H] end;
    try (destruct H as (E & _); exfalso; apply N1; rewrite E; tauto).
  - destruct H as (_ & _ & em & -> & H). exists em. split; [reflexivity|]. exact (yields_own_of _ _ _ _ _ _ _ H).
  - destruct H as (E & _). exfalso. apply E. left. reflexivity.
Qed.

Lemma go_follows n : forall (w : world) e j w' d, go n w e j = Ok (w', d) -> follows w -> job_own w j -> follows w'.
Proof.
  induction n as [|n IH]; intros w e j w' d H (HW & HY & HT & HF) HJ; [destruct j; discriminate|].
  destruct j as [s m|self [|x rest]].
  - apply go_msg in H. destruct H as [(to & wm & coins & x & w1 & subs & d' & -> & _ & Hh & Hg)|(_ & Ho)].
    + pose proof (handle_log _ _ _ _ _ _ _ _ _ _ _ _ Hh) as HL. pose proof (handle_obeys _ _ _ _ _ _ _ _ _ _ Hh HW) as (W1 & F1 & T1).
      pose proof (handle_typed _ _ _ _ _ _ _ _ _ _ Hh HW HY) as Y1.
      assert (EL : w_log w1 = (s, WasmExecute to wm coins) :: w_log w) by exact HL.
      apply (IH _ _ _ _ _ Hg).
      * split; [exact W1|]. split; [exact Y1|]. split; [exact (noted_own _ _ _ _ HT EL HJ)|].
        apply (grown_else w); [exact HF|exact F1|exists [(s, WasmExecute to wm coins)]; exact EL].
      * intros ->. destruct (T1 eq_refl) as (-> & em0 & -> & _). destruct (handle_own _ _ _ _ _ _ _ _ _ Hh) as (em & E & Y). injection E as <-.
        eapply Forall_impl; [|exact Y]. intros y Hy. exists em0, coins. split; [rewrite EL; left; reflexivity|exact Hy].
    + pose proof (other_quiet _ _ _ _ _ _ _ _ Ho) as Q. assert (EL : w_log w' = (s, m) :: w_log w) by apply Q.
      destruct (other_own _ _ _ _ _ _ Ho HW HY) as (Y1 & FL).
      split; [apply Q; exact HW|]. split; [exact Y1|]. split; [exact (noted_own _ _ _ _ HT EL HJ)|]. destruct FL as [E|(-> & R & NO)].
      * apply (grown_else w); [exact HF|exact E|exists [(s, m)]; exact EL].
      * intros _. exists m, (w_log w). split; [exists []; exact EL|split; [exact R|exact NO]].
  - apply go_nil in H. destruct H as [-> _]. split; [|split; [|split]]; assumption.
  - apply go_cons in H. destruct H as (n' & E & H). injection E as <-.
    assert (JR : forall wb, log_grows w wb -> job_own wb (JSubs self rest)).
    { intros wb (l & L) E. rewrite L. eapply Forall_impl; [|exact (Forall_inv_tail (HJ E))]. intros y. apply told_own_grow. }
    assert (JM : job_own w (JMsg self (sm_msg x))) by (intros E; exact (Forall_inv (HJ E))).
    assert (HR : forall wa id r wb more wc dc wd dd, log_grows w wa -> follows wa -> on_reply Out A wa e self id r = Ok (wb, more) ->
      go n wb e (JSubs self more) = Ok (wc, dc) -> go n wc e (JSubs self rest) = Ok (wd, dd) -> follows wd).
    { intros wa id r wb more wc dc wd dd (l & L) (Wa & Ya & Ta & Fa) Hr Hg1 Hg2. pose proof (reply_log _ _ _ _ _ _ _ _ _ Hr) as RL.
      pose proof (reply_obeys _ _ _ _ _ _ _ Hr Wa) as (Wb & Ub & Mb). destruct (go_log _ _ _ _ _ _ _ _ Hg1) as (l1 & L1).
      refine (IH _ _ _ _ _ Hg2 (IH _ _ _ _ _ Hg1 _ _) _).
      - split; [exact Wb|]. split; [exact (reply_typed _ _ _ _ _ _ _ Hr Wa Ya)|]. split; [intros m b Hm; rewrite RL in Hm; exact (Ta _ _ Hm)|].
        apply (grown_else wa); [exact Fa|exact Ub|exists []; exact RL].
      - intros E. rewrite (Mb E). constructor.
      - apply JR. exists (l1 ++ l). rewrite L1, RL, L, app_assoc. reflexivity. }
    destruct H as [(w1 & d1 & H1 & [(_ & H2)|(id & w2 & more & w3 & d3 & _ & H2 & H3 & H4)])|(id & w2 & more & w3 & d3 & _ & _ & H2 & H3 & H4)].
    + refine (IH _ _ _ _ _ H2 (IH _ _ _ _ _ H1 _ JM) (JR _ (go_log _ _ _ _ _ _ _ _ H1))). split; [|split; [|split]]; assumption.
    + refine (HR _ _ _ _ _ _ _ _ _ (go_log _ _ _ _ _ _ _ _ H1) (IH _ _ _ _ _ H1 _ JM) H2 H3 H4). split; [|split; [|split]]; assumption.
    + refine (HR _ _ _ _ _ _ _ _ _ (ex_intro _ [] eq_refl) _ H2 H3 H4). split; [|split; [|split]]; assumption.
Qed.

Lemma run_follows ts : forall w : world, follows w -> follows (world_run Out A w ts).
Proof.
  induction ts as [|t ts IH]; intros w HI; [exact HI|].
  change (world_run Out A w (t :: ts)) with (world_run Out A (world_step Out A w t) ts). apply IH.
  destruct (WorldRun.step_cases Out A w t) as [E|(d & Hd & H)]; [rewrite E in *; exact HI|].
  apply (go_follows _ _ _ _ _ _ H HI). intros E. exfalso. rewrite E in Hd. revert Hd. unfold is_dao, dao_addrs. cbn. rewrite N.eqb_refl, ?Bool.orb_true_r. discriminate.
Qed.
End Own.

End P.
