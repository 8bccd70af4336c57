(** Settings are what the proposals made them, from the creation of a DAO on. *)
From Verif Require Import Base OMap OMapLemmas Assets PollModel PollSpec FundsModel MemberModel MemberSpec Msgs ControllerModel ControllerSpec TreasuryModel EnterpriseModel
  OutpostsModel WorldModel WorldSpec WorldProofs WorldRun LiftFacts PurseSpec DoneSpec DoneFacts AccessProofs SettingSpec SettingProofs.

Lemma rules_as_run (X : Type) (Out : outside X) A w0 ts w : new_dao A w0 -> w = world_run Out A w0 ts -> lasting w ->
  (forall id, In id (runs A w) -> exists p, oget (ct_proposals (w_ctl w)) id = Some p) /\
  ct_config (w_ctl w) = fold_left ruled (acts A w) (ct_config (w_ctl w0)) /\
  ct_council (w_ctl w) = fold_left seated (acts A w) (ct_council (w_ctl w0)).
Proof.
  intros N -> L. apply (run_set Out A (nd_addrs _ _ N) (ct_config (w_ctl w0)) (ct_council (w_ctl w0)) ts w0 (new_wired A w0 N)); [|exact (proj2 L)].
  unfold set_so, acts, runs. rewrite (nd_log _ _ N). split; [intros id []|split; reflexivity].
Qed.

(** Nothing that came later is about the council, or about one of the rules. *)
Definition about_council (a : proposal_action) : bool := match a with PUpdateCouncil _ => true | _ => false end.
Definition about_rules (a : proposal_action) : bool := match a with PUpdateGovConfig _ => true | _ => false end.
Lemma seated_skip l : forall c, existsb about_council l = false -> fold_left seated l c = c.
Proof.
  induction l as [|a l IH]; intros c H; [reflexivity|]. cbn [existsb] in H. apply Bool.orb_false_iff in H. destruct H as (H1 & H2). cbn [fold_left].
  rewrite (IH _ H2). destruct a; try reflexivity. discriminate H1.
Qed.
Lemma ruled_skip l : forall g, existsb about_rules l = false -> fold_left ruled l g = g.
Proof.
  induction l as [|a l IH]; intros g H; [reflexivity|]. cbn [existsb] in H. apply Bool.orb_false_iff in H. destruct H as (H1 & H2). cbn [fold_left].
  rewrite (IH _ H2). destruct a; try reflexivity. discriminate H1.
Qed.

Lemma last_word (X : Type) (Out : outside X) A w0 ts w : new_dao A w0 -> w = world_run Out A w0 ts -> lasting w ->
  (forall before c after, acts A w = before ++ PUpdateCouncil c :: after -> existsb about_council after = false ->
     match c with
     | None => ct_council (w_ctl w) = None
     | Some s => exists cc, ct_council (w_ctl w) = Some cc /\ cc_quorum cc = cs_quorum s /\ cc_threshold cc = cs_threshold s /\
         cc_allowed cc = match cs_allowed s with Some l => l | None => [TUpgradeDao] end
     end) /\
  (forall before u after, acts A w = before ++ PUpdateGovConfig u :: after -> existsb about_rules after = false ->
     let g := ct_config (w_ctl w) in
     (forall x, gu_quorum u = Change x -> gc_quorum g = x) /\ (forall x, gu_threshold u = Change x -> gc_threshold g = x) /\
     (forall x, gu_veto_threshold u = Change x -> gc_veto_threshold g = x) /\ (forall x, gu_vote_duration u = Change x -> gc_vote_duration g = x) /\
     (forall x, gu_minimum_deposit u = Change x -> gc_minimum_deposit g = x) /\ (forall x, gu_allow_early u = Change x -> gc_allow_early g = x)) /\
  (existsb about_council (acts A w) = false -> ct_council (w_ctl w) = ct_council (w_ctl w0)) /\
  (existsb about_rules (acts A w) = false -> ct_config (w_ctl w) = ct_config (w_ctl w0)).
Proof.
  intros N Hw L. destruct (rules_as_run X Out A w0 ts w N Hw L) as (_ & E1 & E2).
  split; [|split; [|split; intros H; [rewrite E2; exact (seated_skip _ _ H)|rewrite E1; exact (ruled_skip _ _ H)]]].
  - intros before c after E H. rewrite E2, E, fold_left_app. cbn [fold_left]. rewrite (seated_skip _ _ H). destruct c as [s|]; [|reflexivity].
    eexists. split; [reflexivity|]. repeat split.
  - intros before u after E H. cbv zeta. rewrite E1, E, fold_left_app. cbn [fold_left]. rewrite (ruled_skip _ _ H).
    cbn [ruled gc_quorum gc_threshold gc_veto_threshold gc_vote_duration gc_minimum_deposit gc_allow_early].
    repeat split; intros x Q; rewrite Q; reflexivity.
Qed.

Lemma all_as_told (X : Type) (Out : outside X) A w0 ts w : new_dao A w0 -> w = world_run Out A w0 ts -> as_told A w0 w.
Proof.
  intros N ->. apply (run_told Out A (nd_addrs _ _ N)). split; intros; rewrite (nd_log _ _ N); reflexivity.
Qed.
