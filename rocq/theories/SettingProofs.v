(** Settings are what the proposals made them: induction over everything that is delivered. *)
From Verif Require Import Base OMap OMapLemmas Assets PollModel PollSpec PollProofs FundsModel FundsSpec FundsProofs FundsFacts MemberModel MemberSpec MemberProofs MemberFacts Msgs
  ControllerModel ControllerSpec ControllerProofs ControllerFacts TreasuryModel TreasuryProofs EnterpriseModel OutpostsModel OutpostsFacts WorldModel WorldSpec WorldProofs WorldRun
  LiftProofs LiftFacts PurseSpec RuleSpec RuleProofs OrderProofs AccessProofs SettingSpec.

Lemma changed_so {T} (x : T) m : apply_change x m = to_be x m.
Proof. destruct m; reflexivity. Qed.

Lemma action_sets o s a s' subs : run_action o s a = Ok (s', subs) -> ct_config s' = ruled (ct_config s) a /\ ct_council s' = seated (ct_council s) a.
Proof.
  intros H. destruct a; cbn [run_action] in H; try (cb; split; reflexivity).
  - unfold act_gov_config in H. cb. split; [|reflexivity]. cbn [with_config ct_config ruled]. unfold apply_config. rewrite !changed_so. reflexivity.
  - unfold act_council in H. cb. split; [reflexivity|]. cbn [with_council ct_council seated].
    match goal with H : validate_council _ = Ok _ |- _ => unfold validate_council in H end.
    match goal with H : match ?c with _ => _ end = Ok _ |- _ => destruct c as [q|] end; cb; [|reflexivity]. destruct (cs_allowed q); reflexivity.
Qed.

Lemma actions_set o l : forall s acc s' subs, fold_res (run_action_acc o) (s, acc) l = Ok (s', subs) ->
  ct_config s' = fold_left ruled l (ct_config s) /\ ct_council s' = fold_left seated l (ct_council s).
Proof.
  induction l as [|a l IH]; intros s acc s' subs H; cbn [fold_res] in H; [injection H as <- _; split; reflexivity|].
  apply bind_ok in H. destruct H as ([s1 m1] & H1 & H). unfold run_action_acc in H1. cbn [fst snd] in H1. apply bind_ok in H1. destruct H1 as ([s2 m2] & H1 & E).
  injection E as <- <-. apply action_sets in H1. destruct H1 as (E1 & E2). apply IH in H. cbn [fold_left]. rewrite <- E1, <- E2. exact H.
Qed.

Section S.
Context {X : Type}.
Variable Out : outside X.
Variable A : addrs.
Hypothesis HA : NoDup (dao_addrs A).
Local Notation world := (world X).
Local Notation go := (go Out A).
Local Notation oracle := (ctl_oracle_of Out A).
Local Notation ctl_addr := (a_controller A).

Lemma ctl_set n (w : world) e sender coins m s' subs w' d :
  wired A w -> ctl_execute (oracle w) ctl_addr (w_ctl w) e sender coins m = Ok (s', subs) ->
  go n (set_ctl w s') e (JSubs ctl_addr subs) = Ok (w', d) ->
  exists n' w1 subs1, (n' <= n)%nat /\ turn Out A w e sender m w1 subs1 /\ (exists d', go n' w1 e (JSubs ctl_addr subs1) = Ok (w', d')) /\
    match m with
    | CExecuteActions id => exists p, oget (ct_proposals (w_ctl w)) id = Some p /\ ct_config (w_ctl w1) = fold_left ruled (pi_actions p) (ct_config (w_ctl w)) /\
        ct_council (w_ctl w1) = fold_left seated (pi_actions p) (ct_council (w_ctl w))
    | _ => same_rules w w1
    end.
Proof.
  intros HW HX HG. destruct (wired_components Out A _ HW) as (att & HC).
  assert (G : (exists id, m = CExecuteActions id) \/ (m = CDeployInitial \/ exists ch, m = CWeightsChanged ch /\ sender = a_council A) \/
    ((forall id, m <> CExecuteActions id) /\ m <> CDeployInitial /\ forall ch, m = CWeightsChanged ch -> sender <> a_council A)).
  { destruct m; try (right; right; repeat split; congruence); [|left; eauto|right; left; left; reflexivity].
    destruct (N.eq_dec sender (a_council A)) as [->|]; [right; left; right; eauto|]. right; right. repeat split; congruence. }
  destruct G as [(id & ->)|[G|(N1 & N2 & N3)]].
  - pose proof HX as HX0. apply (WorldProofs.ctl_call A HA _ _ _ _ _ _ _ _ _ HC (wi_of _ _ HW)) in HX0.
    exists n, (set_ctl w s'), subs. split; [lia|]. remember (CExecuteActions id) as cm eqn:EM. destruct HX0; try discriminate EM;
      try (match goal with Q : creates _ |- _ => rewrite EM in Q; destruct Q end);
      try (match goal with Q : _ \/ _ |- _ => destruct Q as [Q|(? & Q & _)]; rewrite EM in Q; discriminate Q end).
    injection EM as ->. split.
    { eapply tu_actions; try eassumption; try reflexivity. split; [reflexivity|]. split; [reflexivity|]. split; [reflexivity|]. split; [assumption|reflexivity]. }
    split; [eexists; exact HG|].
    cbn [ctl_execute] in HX. unfold execute_actions in HX. apply bind_ok in HX. destruct HX as (u & _ & HX). apply bind_ok in HX. destruct HX as (p' & Hp' & HX).
    match goal with Q : oget _ id = Some p |- _ => rename Q into HP end. rewrite HP in Hp'. injection Hp' as <-. exists p. split; [exact HP|].
    exact (actions_set _ _ _ _ _ _ HX).
  - exists n, (set_ctl w s'), subs. split; [lia|]. pose proof HX as HX0. apply (WorldProofs.ctl_call A HA _ _ _ _ _ _ _ _ _ HC (wi_of _ _ HW)) in HX0.
    assert (Q : ct_config s' = ct_config (w_ctl w) /\ ct_council s' = ct_council (w_ctl w) /\ ct_proposals s' = ct_proposals (w_ctl w) /\
      ct_enterprise s' = ct_enterprise (w_ctl w) /\ Forall (fun x => sm_reply x = ReplyNever /\ mild A (sm_msg x) /\ payment ctl_addr (sm_msg x) = []) subs).
    { destruct G as [->|(ch & -> & ->)].
      - cbn [ctl_execute] in HX.
        assert (Q : ct_config s' = ct_config (w_ctl w) /\ ct_council s' = ct_council (w_ctl w)).
        { unfold deploy_initial in HX. cb. rewrite HC in HX. destruct (dflt [] (ct_treasuries (w_ctl w))) as [|dd l]; cb; split; reflexivity. }
        destruct Q as (Q2 & Q3). split; [exact Q2|]. split; [exact Q3|].
        remember CDeployInitial as cm eqn:EM. destruct HX0; try discriminate EM;
          try (match goal with Q : creates _ |- _ => rewrite EM in Q; destruct Q end). auto.
      - cbn [ctl_execute] in HX. unfold weights_changed in HX. rewrite HC in HX. cbn [bind wiring_of c_council] in HX. rewrite N.eqb_refl in HX. injection HX as <- <-.
        repeat split; constructor. }
    destruct Q as (Q2 & Q3 & Q4 & Q5 & Q6). split.
    { apply tu_other; try assumption; try reflexivity. split; [reflexivity|]. split; [reflexivity|]. split; [reflexivity|]. split; [assumption|reflexivity]. }
    split; [eexists; exact HG|]. assert (R : same_rules w (set_ctl w s')) by (split; assumption).
    destruct G as [->|(ch & -> & _)]; exact R.
  - destruct (turn_rules Out A HA _ _ _ _ _ _ _ _ _ _ HW HX HG N1 N2 N3) as (n' & w1 & subs1 & L & T & R & G2). exists n', w1, subs1.
    split; [exact L|]. split; [exact T|]. split; [exact G2|]. destruct m; try exact R. destruct (N1 _ eq_refl).
Qed.

(** * The whole history of the controller *)
Variable g0 : gov_config.
Variable c0 : option council_config.
Definition set_so (w : world) : Prop :=
  (forall id, In id (runs A w) -> exists p, oget (ct_proposals (w_ctl w)) id = Some p) /\
  ct_config (w_ctl w) = fold_left ruled (acts A w) g0 /\ ct_council (w_ctl w) = fold_left seated (acts A w) c0.

Lemma kept_actions (w w1 : world) l : kept w w1 -> (forall id, In id l -> exists p, oget (ct_proposals (w_ctl w)) id = Some p) ->
  flat_map (actions_of w1) l = flat_map (actions_of w) l.
Proof.
  intros (_ & _ & K) H. induction l as [|i l IH]; [reflexivity|]. cbn [flat_map]. rewrite IH by (intros; apply H; right; assumption). f_equal.
  destruct (H i (or_introl eq_refl)) as (p & Hp). destruct (K _ _ Hp) as (p' & Hp' & C & _). unfold actions_of. rewrite Hp, Hp'. injection C as _ _ ->. reflexivity.
Qed.

Lemma so_step (w w1 : world) new : set_so w -> kept w w1 -> runs A w1 = new ++ runs A w ->
  (forall id, In id new -> exists p, oget (ct_proposals (w_ctl w1)) id = Some p) ->
  ct_config (w_ctl w1) = fold_left ruled (flat_map (actions_of w1) (rev new)) (ct_config (w_ctl w)) ->
  ct_council (w_ctl w1) = fold_left seated (flat_map (actions_of w1) (rev new)) (ct_council (w_ctl w)) -> set_so w1.
Proof.
  intros (H1 & H2 & H3) K R N C1 C2.
  assert (E : acts A w1 = acts A w ++ flat_map (actions_of w1) (rev new)).
  { unfold acts. rewrite R, rev_app_distr, flat_map_app. f_equal. apply kept_actions; [exact K|]. intros id Hid. apply H1. apply in_rev. exact Hid. }
  split; [|rewrite E, !fold_left_app, <- H2, <- H3; split; assumption].
  intros id Hid. rewrite R in Hid. apply in_app_or in Hid. destruct Hid as [Hid|Hid]; [exact (N _ Hid)|].
  destruct (H1 _ Hid) as (p & Hp). destruct K as (_ & _ & K). destruct (K _ _ Hp) as (p' & Hp' & _). eauto.
Qed.
Lemma so_still (w w1 : world) : set_so w -> kept w w1 -> runs A w1 = runs A w -> same_rules w w1 -> set_so w1.
Proof. intros H K R (C1 & C2). apply (so_step w w1 []); auto. intros id []. Qed.

Definition run_ids (x : addr * cosmos_msg) : list N :=
  match snd x with WasmExecute to (ToController (CExecuteActions i)) _ => if to =? ctl_addr then [i] else [] | _ => [] end.
Lemma runs_of (w : world) l k : w_log w = l ++ k -> runs A w = flat_map run_ids l ++ flat_map run_ids k.
Proof. intros E. unfold runs. rewrite E, flat_map_app. reflexivity. Qed.
Lemma gov_runs l : flat_map run_ids (map (fun gm => (ctl_addr, WasmExecute (a_governance A) (ToGovernance gm) [])) l) = [].
Proof. induction l as [|g l IH]; [reflexivity|exact IH]. Qed.

Lemma go_set n : forall (w : world) e j w' d, go n w e j = Ok (w', d) -> wired A w ->
  match j with JSubs self subs => self = ctl_addr -> fine subs | JMsg _ _ => True end -> size w' < M64 -> set_so w -> set_so w'.
Proof.
  induction n as [n IH] using lt_wf_ind. intros w e j w' d H HW HF HS CT.
  destruct j as [s m|self [|x rest]].
  - destruct n as [|n]; [discriminate|].
    apply go_msg in H. destruct H as [(to & wm & coins & x & w1 & subs & d' & -> & _ & Hh & Hg)|(NE & Ho)].
    + destruct (start_wired A w s (WasmExecute to wm coins) x HW) as (W0 & K0 & S0).
      assert (LOG0 : w_log (set_ext (note w s (WasmExecute to wm coins)) x) = (s, WasmExecute to wm coins) :: w_log w) by reflexivity.
      assert (EC0 : w_ctl (set_ext (note w s (WasmExecute to wm coins)) x) = w_ctl w) by reflexivity.
      set (w0 := set_ext (note w s (WasmExecute to wm coins)) x) in *.
      assert (NR : (forall id, wm <> ToController (CExecuteActions id)) \/ to <> ctl_addr -> runs A w0 = runs A w).
      { intros Q. unfold runs. rewrite LOG0. cbn [flat_map]. destruct wm; try reflexivity. destruct m; try reflexivity. cbn [snd].
        destruct (N.eqb_spec to ctl_addr); [|reflexivity]. destruct Q as [Q|Q]; [destruct (Q _ eq_refl)|contradiction]. }
      assert (CT0 : (forall id, wm <> ToController (CExecuteActions id)) \/ to <> ctl_addr -> set_so w0).
      { intros Q. apply (so_still w w0 CT K0 (NR Q)). split; rewrite EC0; reflexivity. }
      pose proof (go_size _ _ _ _ _ _ _ _ Hg) as GS. pose proof (handle_log _ _ _ _ _ _ _ _ _ _ _ _ Hh) as HL.
      apply (handle_cases Out A) in Hh. destruct Hh as [(-> & cm & s' & -> & He & -> & _)|[(-> & gm & g & -> & He & -> & ->)|[(-> & mm & s' & outs & -> & He & -> & -> & _)|(N1 & N2 & N3 & Q)]]].
      * destruct (ctl_set _ _ _ _ _ _ _ _ _ _ W0 He Hg) as (n' & w1 & subs1 & L & T & (d2 & G) & R).
        pose proof (go_size _ _ _ _ _ _ _ _ G) as GS1.
        assert (HS1 : size w1 < M64) by lia.
        destruct (turn_wired Out A _ _ _ _ _ _ W0 HS1 T) as (W1 & K1 & F1). destruct (turn_log Out A _ _ _ _ _ _ T) as (l & EL).
        assert (CT1 : set_so w1).
        { destruct (match cm with CExecuteActions id => Some id | _ => None end) as [id|] eqn:EM.
          - destruct cm; try discriminate EM. injection EM as ->. destruct R as (p & HP & C1 & C2).
            pose proof (kept_trans _ _ _ K0 K1) as K. destruct K1 as (_ & _ & K1). destruct (K1 _ _ HP) as (p' & Hp' & CC & _).
            assert (EA : actions_of w1 id = pi_actions p) by (unfold actions_of; rewrite Hp'; injection CC as _ _ ->; reflexivity).
            apply (so_step w w1 [id] CT K).
            + rewrite (runs_of w1 _ _ EL), gov_runs, LOG0. cbn [app flat_map]. unfold run_ids at 1. cbn [snd]. rewrite N.eqb_refl. reflexivity.
            + intros i [<-|[]]. eauto.
            + cbn [rev app flat_map]. rewrite app_nil_r, EA, <- EC0. exact C1.
            + cbn [rev app flat_map]. rewrite app_nil_r, EA, <- EC0. exact C2.
          - assert (Q : forall id, ToController cm <> ToController (CExecuteActions id)) by (intros id E; injection E as ->; discriminate EM).
            apply (so_still w0 w1 (CT0 (or_introl Q)) K1).
            + rewrite (runs_of w1 _ _ EL), gov_runs. reflexivity.
            + destruct cm; try exact R. discriminate EM. }
        exact (IH n' ltac:(lia) _ _ _ _ _ G W1 (fun _ => F1) HS CT1).
      * apply go_nil in Hg. destruct Hg as [-> _]. specialize (CT0 (or_intror (gov_not_ctl A HA))). exact CT0.
      * destruct (member_wired A w0 s' W0) as (W1 & K1). specialize (CT0 (or_intror (member_not_ctl A HA))).
        exact (IH n ltac:(lia) _ _ _ _ _ Hg W1 (fun E => False_ind _ (member_not_ctl A HA E)) HS CT0).
      * destruct (quiet_wired A _ _ Q W0) as (W1 & K1). specialize (CT0 (or_intror N1)).
        assert (EC : w_ctl w1 = w_ctl w0) by apply Q.
        assert (CT1 : set_so w1). { apply (so_still w0 w1 CT0 K1); [unfold runs; rewrite HL; reflexivity|split; rewrite EC; reflexivity]. }
        exact (IH n ltac:(lia) _ _ _ _ _ Hg W1 (fun E => False_ind _ (N1 E)) HS CT1).
    + apply (other_quiet Out A) in Ho. assert (EC : w_ctl w' = w_ctl w) by (apply Ho). assert (EL : w_log w' = (s, m) :: w_log w) by (apply Ho).
      destruct (start_wired A w s m (w_ext w) HW) as (W0 & K0 & S0). destruct (quiet_wired A _ _ Ho W0) as (W1 & K1).
      apply (so_still w w' CT (kept_trans _ _ _ K0 K1)); [|split; rewrite EC; reflexivity].
      unfold runs. rewrite EL. cbn [flat_map snd]. destruct m; try reflexivity. destruct (NE _ _ _ eq_refl).
  - apply go_nil in H. destruct H as [-> _]. exact CT.
  - apply go_cons in H. destruct H as (n' & -> & H).
    assert (HR0 : self = ctl_addr -> fine rest) by (intros E; exact (Forall_inv_tail (HF E))).
    assert (HR : forall wa id r wb more wc dc wd dd, sm_reply x = ReplySuccess id \/ sm_reply x = ReplyAlways id ->
      wired A wa -> set_so wa -> on_reply Out A wa e self id r = Ok (wb, more) -> go n' wb e (JSubs self more) = Ok (wc, dc) ->
      go n' wc e (JSubs self rest) = Ok (wd, dd) -> size wd < M64 -> set_so wd).
    { intros wa id r wb more wc dc wd dd HI Wa Ka Hr Hg1 Hg2 Sd.
      pose proof (go_size _ _ _ _ _ _ _ _ Hg2) as S2. pose proof (reply_log _ _ _ _ _ _ _ _ _ Hr) as RL.
      assert (Wb : wired A wb /\ set_so wb /\ (self = ctl_addr -> fine more)).
      { apply (reply_cases Out A) in Hr. destruct Hr as [(-> & s' & Hr & ->)|(N & Q)].
        - assert (id = 3) as ->. { pose proof (Forall_inv (HF eq_refl)) as F1. cbn beta in F1. destruct HI as [E|E], F1 as [F|F]; congruence. }
          apply reply_3 in Hr. destruct Hr as [-> ->]. rewrite set_ctl_same. split; [exact Wa|]. split; [exact Ka|]. intros _; constructor.
        - destruct (quiet_wired A _ _ Q Wa) as (Q1 & Q2). split; [exact Q1|]. assert (EC : w_ctl wb = w_ctl wa) by apply Q.
          split; [|intros E; destruct (N E)]. apply (so_still wa wb Ka Q2); [unfold runs; rewrite RL; reflexivity|split; rewrite EC; reflexivity]. }
      destruct Wb as (Wb & Kb & Fb).
      destruct (layer1 Out A HA _ _ _ _ _ _ Hg1 Wb Fb ltac:(lia)) as (Wc & _).
      pose proof (IH n' ltac:(lia) _ _ _ _ _ Hg1 Wb Fb ltac:(lia) Kb) as Kc.
      exact (IH n' ltac:(lia) _ _ _ _ _ Hg2 Wc HR0 Sd Kc). }
    destruct H as [(w1 & d1 & H1 & [(_ & H2)|(id & w2 & more & w3 & d3 & E & H2 & H3 & H4)])|(id & w2 & more & w3 & d3 & _ & E & H2 & H3 & H4)].
    + pose proof (go_size _ _ _ _ _ _ _ _ H2). destruct (layer1 Out A HA _ _ _ _ _ _ H1 HW I ltac:(lia)) as (W1 & _).
      pose proof (IH n' ltac:(lia) _ _ _ _ _ H1 HW I ltac:(lia) CT) as K1.
      exact (IH n' ltac:(lia) _ _ _ _ _ H2 W1 HR0 HS K1).
    + assert (S1 : size w1 < M64).
      { pose proof (go_size _ _ _ _ _ _ _ _ H3). pose proof (go_size _ _ _ _ _ _ _ _ H4). pose proof (reply_log _ _ _ _ _ _ _ _ _ H2) as RL. unfold size in *. rewrite RL in *. lia. }
      destruct (layer1 Out A HA _ _ _ _ _ _ H1 HW I S1) as (W1 & _).
      pose proof (IH n' ltac:(lia) _ _ _ _ _ H1 HW I S1 CT) as K1.
      eapply HR; [exact E|exact W1|exact K1|exact H2|exact H3|exact H4|exact HS].
    + eapply HR; [right; exact E|exact HW|exact CT|exact H2|exact H3|exact H4|exact HS].
Qed.

Lemma run_set ts : forall w : world, wired A w -> set_so w -> size (world_run Out A w ts) < M64 -> set_so (world_run Out A w ts).
Proof.
  induction ts as [|t ts IH]; intros w W C S; [exact C|].
  change (world_run Out A w (t :: ts)) with (world_run Out A (world_step Out A w t) ts) in *.
  pose proof (run_size Out A ts (world_step Out A w t)) as S1.
  destruct (step_cases Out A w t) as [E|(d & Hd & H)]; [rewrite E in *; apply IH; assumption|].
  destruct (layer1 Out A HA _ _ _ _ _ _ H W I ltac:(lia)) as (W1 & _).
  apply IH; try assumption. exact (go_set _ _ _ _ _ _ H W I ltac:(lia) C).
Qed.

End S.

(** * Single calls of the other contracts *)

Lemma ohas_get {V} (m : omap V) k : ohas m k = is_some (oget m k).
Proof. reflexivity. Qed.
Lemma ohas_set {V} (m : omap V) k v h : ohas (oset m k v) h = ohas m h || (k =? h).
Proof. rewrite !ohas_get, oget_oset. destruct (k =? h); [rewrite Bool.orb_true_r|rewrite Bool.orb_false_r]; reflexivity. Qed.
Lemma ohas_del {V} (m : omap V) k h : ohas (odel m k) h = ohas m h && negb (k =? h).
Proof. rewrite !ohas_get, oget_odel. destruct (k =? h); [rewrite Bool.andb_false_r|rewrite Bool.andb_true_r]; reflexivity. Qed.

Lemma en_told o e s m e' subs : enterprise_execute o e s m = Ok (e', subs) ->
  en_metadata e' = described (en_metadata e) (ToEnterprise m) /\ en_version e' = versioned (en_version e) (ToEnterprise m) /\
  (en_versioning e', en_factory e') = registered (en_versioning e, en_factory e) (ToEnterprise m).
Proof.
  intros H. destruct m; cbn [enterprise_execute] in H.
  - apply bind_ok in H. destruct H as (e1 & H1 & H). injection H as <- <-. unfold finalize_instantiation in H1.
    repeat (apply bind_ok in H1; destruct H1 as (? & _ & H1)). injection H1 as <-. repeat split.
  - apply bind_ok in H. destruct H as (e1 & H1 & H). injection H as <- <-. unfold update_metadata in H1. apply bind_ok in H1. destruct H1 as (y & Hy & H1).
    injection H1 as <-. cbn [en_metadata en_version en_versioning en_factory described versioned registered]. rewrite !changed_so. repeat split.
  - unfold upgrade_dao in H. repeat (apply bind_ok in H; destruct H as (? & _ & H)). injection H as <- <-. repeat split.
  - unfold set_attestation in H. repeat (apply bind_ok in H; destruct H as (? & _ & H)). injection H as <- <-. repeat split.
  - apply bind_ok in H. destruct H as (e1 & H1 & H). injection H as <- <-. unfold remove_attestation in H1. apply bind_ok in H1. destruct H1 as (y & Hy & H1).
    injection H1 as <-. repeat split.
  - unfold en_execute_msgs in H. repeat (apply bind_ok in H; destruct H as (? & _ & H)). injection H as <- <-. repeat split.
  - apply bind_ok in H. destruct H as (e1 & H1 & H). injection H as <- <-. unfold update_en_config in H1. apply bind_ok in H1. destruct H1 as (y & Hy & H1).
    apply bind_ok in H1. destruct H1 as (v1 & Hv & H1). apply bind_ok in H1. destruct H1 as (f1 & Hf & H1). injection H1 as <-.
    cbn [en_metadata en_version en_versioning en_factory described versioned registered fst snd]. split; [reflexivity|]. split; [reflexivity|]. f_equal.
    + destruct versioning; cbn [to_be]; [|congruence]. unfold addr_validate in Hv. destruct (_ =? 0); [discriminate|]. congruence.
    + destruct factory; cbn [to_be]; [|congruence]. unfold addr_validate in Hf. destruct (_ =? 0); [discriminate|]. congruence.
Qed.

Lemma funds_told o f s coins m f' ps : funds_execute o f s coins m = Ok (f', ps) -> f_min f' = lowered (f_min f) (ToFunds m).
Proof.
  intros H. pose proof (funds_settings _ _ _ _ _ _ _ H) as (_ & K & _). destruct m as [ch|mn| |user ns cs|x known]; try (apply K; discriminate).
  cbn [funds_execute] in H. apply bind_ok in H. destruct H as (f1 & H1 & H). injection H as <- _. unfold update_minimum in H1.
  apply bind_ok in H1. destruct H1 as (? & _ & H1). cbn [lowered]. cbv zeta in H1. destruct (N.eqb_spec (f_min f) mn) as [E|_]; [injection H1 as <-; exact E|].
  destruct (if _ <? _ then _ else _) as [lo hi]. apply bind_ok in H1. destruct H1 as ([f2 t2] & _ & H1). injection H1 as <-. reflexivity.
Qed.

Lemma valid_same x y : addr_validate x = Ok y -> y = x.
Proof. unfold addr_validate. destruct (x =? 0); [discriminate|]. congruence. Qed.

Lemma add_hook_told o m s h m' k : add_hook o m s h = Ok m' -> ohas (m_hooks m') k = ohas (m_hooks m) k || (h =? k).
Proof. unfold add_hook. intros H. apply bind_ok in H. destruct H as (? & _ & H). apply bind_ok in H. destruct H as (y & Hy & H). apply valid_same in Hy. subst y. injection H as <-. apply ohas_set. Qed.
Lemma remove_hook_told o m s h m' k : remove_hook o m s h = Ok m' -> ohas (m_hooks m') k = ohas (m_hooks m) k && negb (h =? k).
Proof. unfold remove_hook. intros H. apply bind_ok in H. destruct H as (? & _ & H). apply bind_ok in H. destruct H as (y & Hy & H). apply valid_same in Hy. subst y. injection H as <-. apply ohas_del. Qed.

Lemma stake_told o s e sender m s' outs h : stake_execute o s e sender m = Ok (s', outs) ->
  match m with SUpdatePeriod (Some d) => st_period s' = d | SUpdatePeriod None => st_period s' = st_period s | _ => True end /\
  match m with
  | SAddHook x => ohas (m_hooks (st_members s')) h = ohas (m_hooks (st_members s)) h || (x =? h)
  | SRemoveHook x => ohas (m_hooks (st_members s')) h = ohas (m_hooks (st_members s)) h && negb (x =? h)
  | _ => True
  end.
Proof.
  intros H. destruct m; cbn [stake_execute] in H; try (split; exact I); apply bind_ok in H; destruct H as (y & Hy & H); injection H as <- _.
  - split; [|exact I]. unfold update_period in Hy. apply bind_ok in Hy. destruct Hy as (? & _ & Hy). injection Hy as <-. destruct p; reflexivity.
  - split; [exact I|]. exact (add_hook_told _ _ _ _ _ _ Hy).
  - split; [exact I|]. exact (remove_hook_told _ _ _ _ _ _ Hy).
Qed.

Lemma member_told o st e s coins m st' outs h : member_execute o st e s coins m = Ok (st', outs) ->
  period_of st' = timed (period_of st) (ToMembership m) /\
  ohas (m_hooks (members_of st')) h = hooked h (ohas (m_hooks (members_of st)) h) (ToMembership m).
Proof.
  intros H. pose proof (member_settings _ _ _ _ _ _ _ _ H) as (P & K & _).
  destruct st as [q|q|q|q], m as [x|x|x|x]; cbn [member_execute] in H; try discriminate;
    apply bind_ok in H; destruct H as [[s1 o1] [H1 H]]; injection H as <- _; cbn [members_of period_of] in *.
  - destruct x as [k h'|x]; cbn [token_execute] in H1; [rewrite P, K by reflexivity; split; reflexivity|].
    destruct (stake_told _ _ _ _ _ _ _ h H1) as (Q1 & Q2).
    destruct x as [?|?|p|?|?]; (split; [try (rewrite P by reflexivity; reflexivity)|try (rewrite K by reflexivity; reflexivity); exact Q2]).
    destruct p; cbn [timed]; congruence.
  - destruct x as [v|x]; cbn [denom_execute] in H1; [rewrite P, K by reflexivity; split; reflexivity|].
    destruct (stake_told _ _ _ _ _ _ _ h H1) as (Q1 & Q2).
    destruct x as [?|?|p|?|?]; (split; [try (rewrite P by reflexivity; reflexivity)|try (rewrite K by reflexivity; reflexivity); exact Q2]).
    destruct p; cbn [timed]; congruence.
  - destruct x as [t hk|ts|v|p|hk|hk]; cbn [nft_execute] in H1; try (rewrite P, K by reflexivity; split; reflexivity);
      apply bind_ok in H1; destruct H1 as (y & Hy & H1); injection H1 as <- _.
    + rewrite K by reflexivity. split; [|reflexivity]. unfold nft_update_period in Hy. apply bind_ok in Hy. destruct Hy as (? & _ & Hy). injection Hy as <-. destruct p; reflexivity.
    + rewrite P by reflexivity. split; [reflexivity|]. exact (add_hook_told _ _ _ _ _ _ Hy).
    + rewrite P by reflexivity. split; [reflexivity|]. exact (remove_hook_told _ _ _ _ _ _ Hy).
  - split; [reflexivity|]. destruct x as [l|l|hk|hk]; cbn [multisig_execute] in H1; [rewrite K by reflexivity; reflexivity..| |];
      apply bind_ok in H1; destruct H1 as (y & Hy & H1); injection H1 as <- _.
    + exact (add_hook_told _ _ _ _ _ _ Hy).
    + exact (remove_hook_told _ _ _ _ _ _ Hy).
Qed.

Lemma add_one t a t' : add_asset t a = Ok t' ->
  (forall d, ohas (tr_natives t') d = ohas (tr_natives t) d || is_native d a) /\ (forall c, ohas (tr_cw20s t') c = ohas (tr_cw20s t) c || is_cw20 c a).
Proof.
  intros H. destruct a; cbn [add_asset] in H; try discriminate; injection H as <-; cbn [tr_set_natives tr_set_cw20s tr_natives tr_cw20s is_native is_cw20];
    (split; intros k; [|]); rewrite ?Bool.orb_false_r, ?ohas_set; reflexivity.
Qed.
Lemma add_all l : forall t t', fold_res add_asset t l = Ok t' ->
  (forall d, ohas (tr_natives t') d = ohas (tr_natives t) d || existsb (is_native d) l) /\ (forall c, ohas (tr_cw20s t') c = ohas (tr_cw20s t) c || existsb (is_cw20 c) l).
Proof.
  induction l as [|a l IH]; intros t t' H; cbn [fold_res] in H; [injection H as <-; split; intros; cbn; rewrite Bool.orb_false_r; reflexivity|].
  apply bind_ok in H. destruct H as (t1 & H1 & H). apply add_one in H1. destruct H1 as (E1 & E2). destruct (IH _ _ H) as (E3 & E4).
  split; intros k; cbn [existsb]; [rewrite E3, E1|rewrite E4, E2]; rewrite Bool.orb_assoc; reflexivity.
Qed.
Lemma check_same l l' : map_res check_asset l = Ok l' -> l' = l.
Proof.
  revert l'. induction l as [|a l IH]; intros l' H; cbn [map_res] in H; [congruence|]. apply bind_ok in H. destruct H as (b & Hb & H). apply bind_ok in H. destruct H as (k & Hk & H).
  injection H as <-. rewrite (IH _ Hk). f_equal. destruct a; cbn [check_asset] in Hb; [congruence|..]; apply bind_ok in Hb; destruct Hb as (c & Hc & Hb); apply valid_same in Hc; congruence.
Qed.
Lemma remove_one t a t' : remove_asset t a = Ok t' ->
  (forall d, ohas (tr_natives t') d = ohas (tr_natives t) d && negb (is_native d a)) /\ (forall c, ohas (tr_cw20s t') c = ohas (tr_cw20s t) c && negb (is_cw20 c a)).
Proof.
  intros H. destruct a; cbn [remove_asset] in H.
  - injection H as <-. split; intros k; cbn [tr_set_natives tr_natives tr_cw20s is_native is_cw20 negb]; rewrite ?Bool.andb_true_r, ?ohas_del; reflexivity.
  - apply bind_ok in H. destruct H as (c' & Hc & H). apply valid_same in Hc. subst c'. injection H as <-.
    split; intros k; cbn [tr_set_cw20s tr_natives tr_cw20s is_native is_cw20 negb]; rewrite ?Bool.andb_true_r, ?ohas_del; reflexivity.
  - apply bind_ok in H. destruct H as (c' & _ & H). injection H as <-. split; intros k; cbn [is_native is_cw20 negb]; rewrite Bool.andb_true_r; destruct (oget _ _); reflexivity.
Qed.
Lemma remove_all l : forall t t', fold_res remove_asset t l = Ok t' ->
  (forall d, ohas (tr_natives t') d = ohas (tr_natives t) d && negb (existsb (is_native d) l)) /\ (forall c, ohas (tr_cw20s t') c = ohas (tr_cw20s t) c && negb (existsb (is_cw20 c) l)).
Proof.
  induction l as [|a l IH]; intros t t' H; cbn [fold_res] in H; [injection H as <-; split; intros; cbn; rewrite Bool.andb_true_r; reflexivity|].
  apply bind_ok in H. destruct H as (t1 & H1 & H). apply remove_one in H1. destruct H1 as (E1 & E2). destruct (IH _ _ H) as (E3 & E4).
  split; intros k; cbn [existsb]; [rewrite E3, E1|rewrite E4, E2]; rewrite Bool.negb_orb, Bool.andb_assoc; reflexivity.
Qed.
Lemma nfts_added l : forall t t', fold_res add_nft t l = Ok t' -> forall c, ohas (tr_nfts t') c = ohas (tr_nfts t) c || existsb (fun x => x =? c) l.
Proof.
  induction l as [|a l IH]; intros t t' H c; cbn [fold_res] in H; [injection H as <-; cbn; rewrite Bool.orb_false_r; reflexivity|].
  apply bind_ok in H. destruct H as (t1 & H1 & H). rewrite (IH _ _ H). unfold add_nft in H1. apply bind_ok in H1. destruct H1 as (a' & Ha & H1). apply valid_same in Ha. subst a'. injection H1 as <-.
  cbn [tr_set_nfts tr_nfts existsb]. rewrite ohas_set, Bool.orb_assoc. reflexivity.
Qed.
Lemma nfts_removed l : forall t t', fold_res remove_nft t l = Ok t' -> forall c, ohas (tr_nfts t') c = ohas (tr_nfts t) c && negb (existsb (fun x => x =? c) l).
Proof.
  induction l as [|a l IH]; intros t t' H c; cbn [fold_res] in H; [injection H as <-; cbn; rewrite Bool.andb_true_r; reflexivity|].
  apply bind_ok in H. destruct H as (t1 & H1 & H). rewrite (IH _ _ H). unfold remove_nft in H1. apply bind_ok in H1. destruct H1 as (a' & Ha & H1). apply valid_same in Ha. subst a'. injection H1 as <-.
  cbn [tr_set_nfts tr_nfts existsb]. rewrite ohas_del, Bool.negb_orb, Bool.andb_assoc. reflexivity.
Qed.

Lemma treasury_told gas t s m t' subs : treasury_execute gas t s m = Ok (t', subs) ->
  (forall d, ohas (tr_natives t') d = listed (is_native d) (ohas (tr_natives t) d) (ToTreasury m)) /\
  (forall c, ohas (tr_cw20s t') c = listed (is_cw20 c) (ohas (tr_cw20s t) c) (ToTreasury m)) /\
  (forall c, ohas (tr_nfts t') c = shown c (ohas (tr_nfts t) c) (ToTreasury m)).
Proof.
  intros H. pose proof (treasury_settings _ _ _ _ _ _ H) as (_ & _ & KL & _ & KN & _). unfold treasury_execute in H.
  assert (KL' : (forall x y, m <> TrUpdateAssets x y) -> tr_natives t' = tr_natives t /\ tr_cw20s t' = tr_cw20s t).
  { intros Q. specialize (KL Q). unfold lists in KL. injection KL as L1 L2 _. auto. }
  destruct m; cbn [listed shown]; try (destruct (KL' ltac:(discriminate)) as (L1 & L2); rewrite L1, L2, (KN ltac:(discriminate)); repeat split; reflexivity).
  - apply bind_ok in H. destruct H as (u & Hu & H). apply bind_ok in H. destruct H as (t1 & H1 & H). apply bind_ok in H. destruct H as (t2 & H2 & H). injection H as <- _.
    unfold add_assets in H1. apply bind_ok in H1. destruct H1 as (l & Hl & H1). apply check_same in Hl. subst l.
    apply add_all in H1. apply remove_all in H2. destruct H1 as (E1 & E2), H2 as (E3 & E4).
    split; [intros d; rewrite E3, E1; reflexivity|]. split; [intros c; rewrite E4, E2; reflexivity|]. intros c. rewrite KN by discriminate. reflexivity.
  - destruct (KL' ltac:(discriminate)) as (L1 & L2).
    apply bind_ok in H. destruct H as (u & Hu & H). apply bind_ok in H. destruct H as (t1 & H1 & H). apply bind_ok in H. destruct H as (t2 & H2 & H). injection H as <- _.
    rewrite L1, L2. split; [reflexivity|]. split; [reflexivity|]. intros c. rewrite (nfts_removed _ _ _ H2), (nfts_added _ _ _ H1). reflexivity.
Qed.

(** * The whole history of the other contracts *)
Section T.
Context {X : Type}.
Variable Out : outside X.
Variable A : addrs.
Hypothesis HA : NoDup (dao_addrs A).
Variable w0 : world X.
Local Notation world := (world X).

Lemma elsewhere {T} (a : addr) (f : T -> wasm_msg -> T) v to m coins : to <> a -> at_contract a f v (WasmExecute to m coins) = v.
Proof. intros H. cbn [at_contract]. destruct (N.eqb_spec to a); [contradiction|reflexivity]. Qed.
Lemma right_there {T} (a : addr) (f : T -> wasm_msg -> T) v m coins : at_contract a f v (WasmExecute a m coins) = f v m.
Proof. cbn [at_contract]. rewrite N.eqb_refl. reflexivity. Qed.

Lemma call_told n (w : world) e s to m coins x w1 subs d : as_told A w0 w -> x_pay Out (w_ext w) s to coins = Ok x ->
  handle Out A n (set_ext (note w s (WasmExecute to m coins)) x) e s to m coins = Ok (w1, subs, d) -> as_told A w0 w1.
Proof.
  intros H _ Hh. pose proof (handle_log _ _ _ _ _ _ _ _ _ _ _ _ Hh) as HL. cbn [set_ext note w_log] in HL.
  apply (handle_all Out A) in Hh. pose proof (apart A HA) as AP. decompose [and] AP. clear AP.
  destruct H as [T1 T2 T3 T4 T5 T6 T7 T8 T9 T10].
  destruct Hh as [(-> & HS & cm & -> & H)|[(-> & HS & gm & -> & H)|[(-> & HS & mm & outs & -> & H)|[(-> & HS & mm & outs & -> & H)|
    [(-> & HS & fm & pays & -> & H)|[(-> & HS & tm & -> & H)|[(-> & HS & em & -> & H)|[(-> & HS & om & -> & H)|(NI & HS)]]]]]]]].
  9: assert (NE : to <> a_enterprise A /\ to <> a_funds A /\ to <> a_membership A /\ to <> a_council A /\ to <> a_treasury A)
       by (unfold dao_addrs in NI; cbn [In] in NI; repeat split; intros ->; apply NI; tauto); destruct NE as (NE1 & NE2 & NE3 & NE4 & NE5).
  all: try pose proof (same_member _ _ _ HS ltac:(discriminate)) as SM; try pose proof (same_council _ _ _ HS ltac:(discriminate)) as SC;
    try pose proof (same_funds _ _ _ HS ltac:(discriminate)) as SF; try pose proof (same_treasury _ _ _ HS ltac:(discriminate)) as ST;
    try pose proof (same_enterprise _ _ _ HS ltac:(discriminate)) as SE; cbn [set_ext note w_member w_council w_funds w_treasury w_enterprise] in *.
  all: try (pose proof (fun h => member_told _ _ _ _ _ _ _ _ h H) as MT); try pose proof (funds_told _ _ _ _ _ _ _ H) as FT; try pose proof (treasury_told _ _ _ _ _ _ H) as TT;
    try pose proof (en_told _ _ _ _ _ _ H) as ET.
  all: split; intros; rewrite HL; unfold followed in *; cbn [fold_right snd];
    rewrite ?SM, ?SC, ?SF, ?ST, ?SE;
    try (rewrite elsewhere by congruence; auto; fail).
  all: rewrite right_there.
  all: first [rewrite <- T1|rewrite <- T2|rewrite <- T3|rewrite <- T4|rewrite <- T5|rewrite <- T6|rewrite <- T7|rewrite <- T8|rewrite <- T9|rewrite <- T10].
  all: first [exact (proj1 (MT 0))|apply MT|exact FT|apply TT|apply ET].
Qed.

Lemma same_told (w w1 : world) k : as_told A w0 w -> w_log w1 = k ++ w_log w ->
  Forall (fun x => match snd x with WasmExecute _ _ _ => False | _ => True end) k ->
  (en_metadata (w_enterprise w1), en_version (w_enterprise w1), en_versioning (w_enterprise w1), en_factory (w_enterprise w1)) =
  (en_metadata (w_enterprise w), en_version (w_enterprise w), en_versioning (w_enterprise w), en_factory (w_enterprise w)) ->
  w_member w1 = w_member w -> w_council w1 = w_council w -> w_funds w1 = w_funds w -> w_treasury w1 = w_treasury w -> as_told A w0 w1.
Proof.
  intros [T1 T2 T3 T4 T5 T6 T7 T8 T9 T10] HL HK E SM SC SF ST. injection E as E1 E2 E3 E4.
  assert (Q : forall T (a : addr) (f : T -> wasm_msg -> T) v, followed (at_contract a f) v (w_log w1) = followed (at_contract a f) v (w_log w)).
  { intros T a f v. rewrite HL. clear -HK. unfold followed. rewrite fold_right_app. generalize (fold_right (fun x acc => at_contract a f acc (snd x)) v (w_log w)). intros y.
    induction HK as [|[s m] k Hm _ IH]; [reflexivity|]. cbn [fold_right snd] in *. rewrite IH. destruct m; try reflexivity. destruct Hm. }
  split; intros; rewrite Q; rewrite ?SM, ?SC, ?SF, ?ST, ?E1, ?E2, ?E3, ?E4; auto.
Qed.

Lemma reply_told (w : world) e self id r w1 more : as_told A w0 w -> on_reply Out A w e self id r = Ok (w1, more) -> as_told A w0 w1.
Proof.
  intros H Hr. pose proof (reply_log _ _ _ _ _ _ _ _ _ Hr) as HL. apply (reply_all Out A) in Hr.
  assert (E : (en_metadata (w_enterprise w1), en_version (w_enterprise w1), en_versioning (w_enterprise w1), en_factory (w_enterprise w1)) =
    (en_metadata (w_enterprise w), en_version (w_enterprise w), en_versioning (w_enterprise w), en_factory (w_enterprise w))).
  { destruct Hr as [(HS & _)|[(_ & Hen)|HS]]; [rewrite (same_enterprise _ _ _ HS ltac:(discriminate)); reflexivity| |rewrite (same_enterprise _ _ _ HS ltac:(discriminate)); reflexivity].
    unfold enterprise_reply in Hen. destruct (id =? 1); [|discriminate]. destruct r as [[a|]|]; try discriminate. apply bind_ok in Hen. destruct Hen as (a' & _ & Hen).
    apply bind_ok in Hen. destruct Hen as (c & _ & Hen). injection Hen as <- _. reflexivity. }
  apply (same_told w w1 []); [exact H|exact HL|constructor|exact E|..];
    destruct Hr as [(HS & _)|[(HS & _)|HS]]; first [exact (same_member _ _ _ HS ltac:(discriminate))|exact (same_council _ _ _ HS ltac:(discriminate))|
      exact (same_funds _ _ _ HS ltac:(discriminate))|exact (same_treasury _ _ _ HS ltac:(discriminate))].
Qed.

Lemma other_told (w : world) e s m w1 d : as_told A w0 w -> (forall to wm coins, m <> WasmExecute to wm coins) -> other_msg Out A (note w s m) e s m = Ok (w1, d) -> as_told A w0 w1.
Proof.
  intros H NE Ho. pose proof (other_quiet _ _ _ _ _ _ _ _ Ho) as Q. assert (HL : w_log w1 = [(s, m)] ++ w_log w) by (apply Q). apply (other_all Out A) in Ho.
  apply (same_told w w1 [(s, m)]); [exact H|exact HL| | |exact (same_member _ _ _ Ho ltac:(discriminate))|exact (same_council _ _ _ Ho ltac:(discriminate))|
    exact (same_funds _ _ _ Ho ltac:(discriminate))|exact (same_treasury _ _ _ Ho ltac:(discriminate))].
  - constructor; [|constructor]. cbn [snd]. destruct m; try exact I. exact (NE _ _ _ eq_refl).
  - rewrite (same_enterprise _ _ _ Ho ltac:(discriminate)). reflexivity.
Qed.

Lemma run_told ts w : as_told A w0 w -> as_told A w0 (world_run Out A w ts).
Proof.
  apply (run_inv Out A (as_told A w0)).
  - intros n w' e s to m coins x w1 subs d H Hp Hh. exact (call_told _ _ _ _ _ _ _ _ _ _ _ H Hp Hh).
  - intros w' e self id r w1 more H Hr. exact (reply_told _ _ _ _ _ _ _ H Hr).
  - intros w' e s m w1 d H NE Ho. exact (other_told _ _ _ _ _ _ H NE Ho).
Qed.
End T.
