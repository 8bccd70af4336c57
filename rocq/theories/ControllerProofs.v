(** Lemmas about the controller model. *)
From Verif Require Import Base OMap OMapLemmas Assets PollModel PollSpec FundsModel MemberModel Msgs ControllerModel ControllerSpec.

Lemma unrestricted_ok o u x : unrestricted o u = Ok x -> co_restricted o u = Ok false.
Proof. unfold unrestricted. intros H. binv H. destruct x0; [discriminate|assumption]. Qed.

(** Take apart every successful computation in the context. *)
Ltac cb :=
  repeat match goal with
  | H : bind _ _ = Ok _ |- _ => binv H
  | H : (let '(_, _) := ?x in _) = Ok _ |- _ => destruct x
  | H : unrestricted _ _ = Ok _ |- _ => apply unrestricted_ok in H
  | H : Ok _ = Ok _ |- _ => inversion H; clear H; subst
  | H : Err _ = Ok _ |- _ => discriminate H
  | x : unit |- _ => destruct x
  end; clean.

(** One computation, two results: they are equal. *)
Ltac same :=
  repeat match goal with
  | H : ?x = Ok ?a, H' : ?x = Ok ?b |- _ => rewrite H in H'; injection H' as H'; try subst b; try subst a
  | H : ?x = Some ?a, H' : ?x = Some ?b |- _ => rewrite H in H'; injection H' as H'; try subst b; try subst a
  end.

Lemma proposal_type_eqb_eq a b : proposal_type_eqb a b = true <-> a = b.
Proof. destruct a, b; cbn; split; congruence. Qed.
Lemma dao_type_eqb_eq a b : dao_type_eqb a b = true <-> a = b.
Proof. destruct a, b; cbn; split; congruence. Qed.
Lemma action_type_eqb_eq a b : action_type_eqb a b = true <-> a = b.
Proof. unfold action_type_eqb. destruct (action_type_eq_dec a b); split; congruence. Qed.

Lemma exec_status_eqb_eq a b : exec_status_eqb a b = true <-> a = b.
Proof.
  destruct a, b; cbn; split; intros H; try congruence; rewrite ?andb_true_iff, ?N.eqb_eq in *;
    try (rewrite Bool.eqb_true_iff in *); try congruence;
    repeat match goal with H : _ /\ _ |- _ => destruct H end; try congruence;
    inversion H; auto.
Qed.

Lemma proper_share_iff v : proper_share v <-> (DEC <? v) || (v =? 0) = false.
Proof. unfold proper_share. rewrite orb_false_iff, N.ltb_ge, N.eqb_neq. split; intros [? ?]; split; lia. Qed.

Lemma validate_ratio_ok v x : validate_ratio v = Ok x <-> proper_share v.
Proof.
  unfold validate_ratio, guard. rewrite proper_share_iff.
  destruct ((DEC <? v) || (v =? 0)); cbn; destruct x; split; congruence.
Qed.

Lemma validate_gov_config_ok t g x : validate_gov_config t g = Ok x <-> sane_config t g.
Proof.
  unfold validate_gov_config, sane_config. split.
  - intros H. cb. apply negb_true_iff in Hb, H. apply N.eqb_neq in Hb.
    apply validate_ratio_ok in Hb0, Hb1.
    split; [lia|]. split; [assumption|]. split; [assumption|]. split.
    + intros v Hv. rewrite Hv in Hb2. apply guard_ok in Hb2. apply negb_true_iff in Hb2.
      apply proper_share_iff. assumption.
    + intros ->. destruct (gc_minimum_deposit g); [discriminate|reflexivity].
  - intros (H1 & H2 & H3 & H4 & H5).
    assert (Hd : negb (gc_vote_duration g =? 0) = true) by (apply negb_true_iff, N.eqb_neq; lia).
    rewrite Hd. cbn [guard bind].
    rewrite (proj2 (validate_ratio_ok _ tt) H2), (proj2 (validate_ratio_ok _ tt) H3). cbn [bind].
    destruct (gc_veto_threshold g) as [v|].
    + specialize (H4 v eq_refl). apply proper_share_iff in H4. rewrite H4. cbn [negb guard bind].
      destruct x. destruct (gc_minimum_deposit g), t; cbn; try reflexivity. discriminate (H5 eq_refl).
    + cbn [bind]. destruct x. destruct (gc_minimum_deposit g), t; cbn; try reflexivity. discriminate (H5 eq_refl).
Qed.

Lemma council_may_power t : council_may t = true <-> council_power t.
Proof. destruct t; cbn; split; intros H; try discriminate; try constructor; inversion H. Qed.

Lemma forallb_Forall {A} (f : A -> bool) l : forallb f l = true <-> Forall (fun a => f a = true) l.
Proof. rewrite forallb_forall, Forall_forall. reflexivity. Qed.

Lemma existsb_In x l : existsb (N.eqb x) l = true <-> In x l.
Proof.
  rewrite existsb_exists. split.
  - intros (y & H & E). apply N.eqb_eq in E. subst. assumption.
  - intros H. exists x. split; [assumption|apply N.eqb_refl].
Qed.

Lemma nodupb_NoDup l : nodupb l = true <-> NoDup l.
Proof.
  induction l as [|a t IH]; cbn.
  - split; [constructor|reflexivity].
  - rewrite andb_true_iff, negb_true_iff, IH. split.
    + intros [H1 H2]. constructor; [|assumption]. intros HI. apply existsb_In in HI. congruence.
    + intros H. inversion H; subst. split; [|assumption].
      destruct (existsb (N.eqb a) t) eqn:E; [|reflexivity]. apply existsb_In in E. contradiction.
Qed.

Lemma map_res_addr l x : map_res addr_validate l = Ok x <-> x = l /\ ~ In 0 l.
Proof.
  revert x. induction l as [|a t IH]; intros x; cbn [map_res].
  - split; [intros H; cb; auto|intros [-> _]; reflexivity].
  - split.
    + intros H. cb. apply IH in Hb0. destruct Hb0 as [-> H0]. split; [reflexivity|].
      intros [->|HI]; auto.
    + intros [-> H]. cbn in H. rewrite (proj2 (IH t)) by (split; [reflexivity|tauto]).
      unfold addr_validate. destruct (N.eqb_spec a 0) as [->|]; [tauto|reflexivity].
Qed.

Lemma validate_council_none x : validate_council None = Ok x <-> x = None.
Proof. cbn. split; intros H; [inversion H; reflexivity|subst; reflexivity]. Qed.

Lemma validate_council_some c x :
  validate_council (Some c) = Ok x <->
  NoDup (cs_members c) /\ ~ In 0 (cs_members c) /\ Forall council_power (dflt [] (cs_allowed c)) /\
  proper_share (cs_quorum c) /\ proper_share (cs_threshold c) /\
  x = Some (mk_council_config (dflt [TUpgradeDao] (cs_allowed c)) (cs_quorum c) (cs_threshold c)).
Proof.
  unfold validate_council. split.
  - intros H. cb. apply map_res_addr in Hb. apply nodupb_NoDup in Hb0. apply forallb_Forall in Hb1.
    apply validate_ratio_ok in Hb2, Hb3. destruct Hb as [_ Hb].
    repeat split; try assumption; try (apply Hb2); try (apply Hb3).
    eapply Forall_impl; [|exact Hb1]. intros a Ha. apply council_may_power. assumption.
  - intros (H1 & H2 & H3 & H4 & H5 & ->).
    rewrite (proj2 (map_res_addr _ _) (conj eq_refl H2)). cbn [bind].
    rewrite (proj2 (nodupb_NoDup _) H1). cbn [guard bind].
    replace (forallb council_may (dflt [] (cs_allowed c))) with true.
    2:{ symmetry. apply forallb_Forall. eapply Forall_impl; [|exact H3]. intros a. apply council_may_power. }
    cbn [guard bind]. rewrite (proj2 (validate_ratio_ok _ tt) H4), (proj2 (validate_ratio_ok _ tt) H5). reflexivity.
Qed.

Lemma default_powers o : Forall council_power (dflt [] o) -> Forall council_power (dflt [TUpgradeDao] o).
Proof. destruct o; cbn; [auto|]. intros _. constructor; [constructor|constructor]. Qed.

(** * Deposits *)

Lemma send_deposit_hands_over a to : hands_over to a (send_deposit a to).
Proof.
  destruct a as [d n|t n|c ts]; cbn; try constructor.
  induction ts as [|t ts IH]; cbn; constructor; auto.
Qed.

(** * Creation *)

Lemma new_poll_ok o s e g actions d t proposer s' out :
  new_poll_msg o s e g actions d t proposer = Ok (s', out) ->
  exists ends_at c, ts_plus_seconds (e_time e) (gc_vote_duration g) = Ok ends_at /\ co_components o = Ok c /\
    s' = with_creating s (Some (mk_info t None None d actions)) /\
    out = [mk_sub (WasmExecute (c_governance c)
             (ToGovernance (GCreatePoll (mk_create proposer 0 ends_at (gc_quorum g) (gc_threshold g)
                                                   (gc_veto_threshold g)))) []) (ReplySuccess 1)].
Proof. unfold new_poll_msg. intros H. cb. eauto 8. Qed.

Lemma sufficient_ok g d w x :
  sufficient_deposit g d w = Ok x ->
  match gc_minimum_deposit g with
  | None => w <> 0
  | Some r => r <= match d with Some d => deposit_amount d | None => 0 end
  end.
Proof.
  unfold sufficient_deposit. destruct (gc_minimum_deposit g); intros H; apply guard_ok in H.
  - apply N.leb_le in H. assumption.
  - apply negb_true_iff, N.eqb_neq in H. assumption.
Qed.

Lemma create_ok o s e actions d proposer s' out :
  create_proposal o s e actions d proposer = Ok (s', out) ->
  exists c w t ends_at,
    co_restricted o proposer = Ok false /\ co_components o = Ok c /\
    co_weight o (c_membership c) proposer = Ok w /\
    match gc_minimum_deposit (ct_config s) with
    | None => w <> 0
    | Some r => r <= match d with Some d => deposit_amount d | None => 0 end
    end /\
    co_dao_type o = Ok t /\ validate_actions o s t actions = Ok tt /\
    ts_plus_seconds (e_time e) (gc_vote_duration (ct_config s)) = Ok ends_at /\
    s' = with_creating s (Some (mk_info General None None d actions)) /\
    out = [mk_sub (WasmExecute (c_governance c)
             (ToGovernance (GCreatePoll (mk_create proposer 0 ends_at (gc_quorum (ct_config s))
                (gc_threshold (ct_config s)) (gc_veto_threshold (ct_config s))))) []) (ReplySuccess 1)].
Proof.
  unfold create_proposal, user_votes. intros H. cb.
  apply new_poll_ok in H. destruct H as (ends_at & c & H1 & H2 & H3 & H4).
  same. match goal with H : sufficient_deposit _ _ _ = Ok _ |- _ => apply sufficient_ok in H end. subst.
  do 4 eexists. do 7 (split; [eassumption|]). split; reflexivity.
Qed.

Lemma council_create_ok o s e sender actions s' out :
  create_council_proposal o s e sender actions = Ok (s', out) ->
  exists cc c w t ends_at,
    co_restricted o sender = Ok false /\ ct_council s = Some cc /\ co_components o = Ok c /\
    co_weight o (c_council c) sender = Ok w /\ w <> 0 /\
    co_dao_type o = Ok t /\ validate_actions o s t actions = Ok tt /\
    Forall (fun a => In (action_type_of a) (cc_allowed cc)) actions /\
    ts_plus_seconds (e_time e) (gc_vote_duration (ct_config s)) = Ok ends_at /\
    s' = with_creating s (Some (mk_info Council None None None actions)) /\
    out = [mk_sub (WasmExecute (c_governance c)
             (ToGovernance (GCreatePoll (mk_create sender 0 ends_at (cc_quorum cc) (cc_threshold cc)
                (gc_veto_threshold (ct_config s))))) []) (ReplySuccess 1)].
Proof.
  unfold create_council_proposal, council_weight. intros H. cb.
  apply new_poll_ok in H. cbn in H. destruct H as (ends_at & c & H1 & H2 & H3 & H4).
  same. subst. match goal with H : negb (_ =? 0) = true |- _ => apply negb_true_iff, N.eqb_neq in H end.
  do 5 eexists. do 7 (split; [eassumption|]). split.
  - match goal with H : forallb _ _ = true |- _ => apply forallb_Forall in H; eapply Forall_impl; [|exact H] end. intros a Ha. cbn in Ha.
    apply existsb_exists in Ha. destruct Ha as (y & Hy & E). apply action_type_eqb_eq in E. subst. assumption.
  - split; [eassumption|]. split; reflexivity.
Qed.

(** * What each event does to the stored proposals *)

Lemma create_frame o s e actions d proposer s' out :
  create_proposal o s e actions d proposer = Ok (s', out) ->
  exists p, s' = with_creating s (Some p) /\ pi_type p = General /\ pi_executed_at p = None /\ pi_earliest p = None /\
            pi_deposit p = d /\ pi_actions p = actions.
Proof.
  intros H. apply create_ok in H. destruct H as (c & w & t & en & _ & _ & _ & _ & _ & _ & _ & -> & _).
  eexists. split; [reflexivity|]. cbn. auto 6.
Qed.

(** Running an action touches the configuration and the council only. *)
Lemma run_action_frame o s a s' out :
  run_action o s a = Ok (s', out) ->
  ct_proposals s' = ct_proposals s /\ ct_enterprise s' = ct_enterprise s /\ ct_creation s' = ct_creation s /\
  ct_treasuries s' = ct_treasuries s /\ ct_creating s' = ct_creating s /\ ct_executing s' = ct_executing s /\
  ct_voting s' = ct_voting s.
Proof.
  intros H. destruct a; cbn [run_action] in H; unfold act_gov_config, act_council, to_treasury in H; cb;
    cbn; auto 8.
Qed.

Lemma run_actions_frame o l : forall s acc s' out,
  fold_res (run_action_acc o) (s, acc) l = Ok (s', out) ->
  ct_proposals s' = ct_proposals s /\ ct_enterprise s' = ct_enterprise s /\ ct_creation s' = ct_creation s /\
  ct_treasuries s' = ct_treasuries s /\ ct_creating s' = ct_creating s /\ ct_executing s' = ct_executing s /\
  ct_voting s' = ct_voting s.
Proof.
  induction l as [|a t IH]; intros s acc s' out H; cbn [fold_res] in H.
  - cb. auto 8.
  - unfold run_action_acc in H at 1. cbn [fst snd] in H. cb.
    apply run_action_frame in Hb0. apply IH in H.
    destruct Hb0 as (A1 & A2 & A3 & A4 & A5 & A6 & A7), H as (B1 & B2 & B3 & B4 & B5 & B6 & B7).
    repeat split; congruence.
Qed.

(** * Effects of actions *)

Lemma map_some_parse l ms : parse_msgs l = Ok ms -> l = map Some ms.
Proof.
  unfold parse_msgs. revert ms. induction l as [|a t IH]; intros ms H; cbn [map_res] in H.
  - cb. reflexivity.
  - cb. cbn. f_equal; [assumption|]. apply IH. assumption.
Qed.

Lemma parse_map_some ms : parse_msgs (map Some ms) = Ok ms.
Proof. unfold parse_msgs. induction ms as [|a t IH]; cbn; [reflexivity|]. rewrite IH. reflexivity. Qed.

Lemma validate_multisig_ok t edits x :
  validate_multisig t edits = Ok x <-> t = DaoMultisig /\ NoDup (map fst edits) /\ ~ In 0 (map fst edits).
Proof.
  unfold validate_multisig.
  assert (HM : forall l : list (N * N), map_res (fun uw : N * N => addr_validate (fst uw)) l = map_res addr_validate (map fst l)).
  { induction l as [|a l IH]; cbn; [reflexivity|]. rewrite IH. reflexivity. }
  rewrite HM. split.
  - intros H. cb. apply dao_type_eqb_eq in Hb. apply map_res_addr in Hb0. apply nodupb_NoDup in H. tauto.
  - intros (-> & H1 & H2). cbn [dao_type_eqb guard bind].
    rewrite (proj2 (map_res_addr _ _) (conj eq_refl H2)). cbn [bind].
    rewrite (proj2 (nodupb_NoDup _) H1). destruct x. reflexivity.
Qed.

Lemma run_action_effect o c t cur s a s' out :
  co_components o = Ok c -> co_dao_type o = Ok t -> co_dao_version o = Ok cur ->
  run_action o s a = Ok (s', out) <-> effect c t cur s a s' out.
Proof.
  intros HC HT HV. split.
  - intros H. destruct a; cbn [run_action] in H; unfold to_treasury in H; rewrite ?HC in H; cbn [bind] in H.
    + cb. constructor.
    + unfold act_gov_config in H. rewrite HT, HC in H. cbn [bind] in H. cb.
      apply validate_gov_config_ok in Hb. econstructor; try reflexivity; [assumption|].
      destruct (gu_unlocking_period u) as [d|].
      * cb. split.
        -- intros secs ->. cbn in Hb1. apply guard_ok in Hb1. apply negb_true_iff, N.ltb_ge in Hb1. assumption.
        -- destruct t; reflexivity.
      * cb. reflexivity.
    + unfold act_council in H. rewrite HC in H. cbn [bind] in H. cb. destruct c0 as [c0|].
      * apply validate_council_some in Hb. destruct Hb as (H1 & H2 & H3 & H4 & H5 & ->).
        cbn [with_council]. eapply ef_council; try assumption; [reflexivity|]. apply default_powers. assumption.
      * apply validate_council_none in Hb. subst. constructor.
    + cb. destruct target; constructor.
    + cb. destruct target; constructor.
    + cb. destruct target; constructor.
    + unfold validate_upgrade in H. rewrite HV in H. cbn [bind] in H. cb. constructor.
      apply negb_true_iff, N.leb_gt in Hb. assumption.
    + cb. apply map_some_parse in Hb. subst. constructor.
    + cb. destruct target; constructor.
    + cb. constructor.
    + rewrite HT in H. cbn [bind] in H. cb. apply validate_multisig_ok in Hb. destruct Hb as (-> & H1 & H2).
      constructor; auto.
    + cb. constructor.
    + cb. constructor.
    + cb. constructor.
  - intros H. inversion H; subst; cbn [run_action]; unfold to_treasury; rewrite ?HC, ?HT; cbn [bind].
    all: try (destruct target; reflexivity); try reflexivity.
    + unfold act_gov_config. rewrite HT, HC. cbn [bind].
      assert (E : g = apply_config (ct_config s) u) by (destruct g; cbn in *; subst; reflexivity).
      subst g. rewrite (proj2 (validate_gov_config_ok t _ tt)) by assumption. cbn [bind].
      destruct (gu_unlocking_period u) as [d|].
      * destruct H7 as [H7 ->]. assert (EV : validate_unlocking (apply_config (ct_config s) u) d = Ok tt).
        { destruct d; cbn; [reflexivity|]. rewrite (proj2 (N.ltb_ge _ _)); [reflexivity|]. apply H7. reflexivity. }
        rewrite EV. cbn [bind]. destruct t; reflexivity.
      * subst. reflexivity.
    + unfold act_council. rewrite HC. cbn [bind validate_council]. reflexivity.
    + unfold act_council. rewrite HC. cbn [bind].
      assert (EC : validate_council (Some spec) =
                   Ok (Some (mk_council_config (dflt [TUpgradeDao] (cs_allowed spec)) (cs_quorum spec) (cs_threshold spec)))).
      { apply validate_council_some. repeat split; try assumption; try apply H4; try apply H5.
        destruct (cs_allowed spec); cbn; [assumption|constructor]. }
      rewrite EC. reflexivity.
    + unfold validate_upgrade. rewrite HV. cbn [bind]. rewrite (proj2 (N.leb_gt _ _)) by assumption. reflexivity.
    + rewrite parse_map_some. reflexivity.
    + rewrite (proj2 (validate_multisig_ok DaoMultisig edits tt)) by auto. reflexivity.
Qed.

Lemma run_actions_effects o c t cur l :
  co_components o = Ok c -> co_dao_type o = Ok t -> co_dao_version o = Ok cur ->
  forall s acc s' out,
  fold_res (run_action_acc o) (s, acc) l = Ok (s', out) <-> exists m, out = acc ++ m /\ effects c t cur s l s' m.
Proof.
  intros HC HT HV. induction l as [|a l IH]; intros s acc s' out; cbn [fold_res].
  - split.
    + intros H. cb. exists []. rewrite app_nil_r. split; [reflexivity|constructor].
    + intros (m & -> & H). inversion H; subst. rewrite app_nil_r. reflexivity.
  - unfold run_action_acc at 1. cbn [fst snd]. split.
    + intros H. cb. apply IH in H. destruct H as (m & -> & H).
      eexists. rewrite <- app_assoc. split; [reflexivity|]. econstructor; [|exact H].
      eapply run_action_effect; eassumption.
    + intros (m & -> & H). inversion H; subst.
      match goal with H : effect _ _ _ _ _ _ _ |- _ => apply (run_action_effect o _ _ _ _ _ _ _ HC HT HV) in H; rewrite H end.
      cbn [bind]. apply IH. exists m2. rewrite <- app_assoc. auto.
Qed.
