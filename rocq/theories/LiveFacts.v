(** When a proposal can be resolved, exactly. *)
From Verif Require Import Base OMap OMapLemmas Assets PollModel PollSpec PollProofs FundsModel FundsSpec MemberModel MemberSpec MemberProofs Msgs
  ControllerModel ControllerSpec ControllerProofs ControllerFacts TreasuryModel EnterpriseModel OutpostsModel WorldModel WorldSpec WorldMember
  WorldProofs WorldRun WorldFacts LiveSpec LiveProofs.

Lemma handing_send to a : handing to a = send_deposit a to.
Proof. destruct a; reflexivity. Qed.

Definition follow_up (A : addrs) (id : N) (p : proposal_info) (v : poll_status) : list sub_msg :=
  (match v with Passed _ _ => [mk_sub (run_order A id) (ReplyAlways 3)] | _ => [] end) ++ handed A p v.

Lemma resolve_follows o A att s e id p pl :
  co_components o = Ok (wiring_of A att) -> ctl_poll o id = Ok pl -> oget (ct_proposals s) id = Some p ->
  (forall t, p_status pl <> InProgress t) ->
  resolve_ended o (a_controller A) s e id = Ok (set_executed s e id p, follow_up A id p (p_status pl)).
Proof.
  intros HC HP Hp HS. unfold resolve_ended, follow_up, handed, return_deposit. rewrite HP. cbn [bind]. rewrite Hp.
  destruct (p_status pl) as [t|y k|r]; [destruct (HS t eq_refl)| |]; cbn [ok_or bind].
  - destruct (pi_deposit p) as [d|], (pi_type p); rewrite ?handing_send; reflexivity.
  - destruct (pi_type p), (pi_deposit p) as [d|]; rewrite ?handing_send, ?HC; destruct r; reflexivity.
Qed.

Section Ask.
Context {X : Type}.
Variable Out : outside X.
Variable A : addrs.
Hypothesis HA : NoDup (dao_addrs A).
Hypothesis HF : free_calls Out.

Lemma go_call n w e s to m coins : go Out A (S n) w e (JMsg s (WasmExecute to m coins)) =
  (x <- x_pay Out (w_ext w) s to coins ;;
   '(w1, subs, d) <- handle Out A n (set_ext (note w s (WasmExecute to m coins)) x) e s to m coins ;;
   '(w2, _) <- go Out A n w1 e (JSubs to subs) ;; Ok (w2, d)).
Proof. reflexivity. Qed.
Lemma go_none n w e self : go Out A (S n) w e (JSubs self []) = Ok (w, None).
Proof. reflexivity. Qed.
Lemma go_success n w e self m id w1 d : go Out A n w e (JMsg self m) = Ok (w1, d) ->
  go Out A (S n) w e (JSubs self [mk_sub m (ReplySuccess id)]) =
  ('(w2, more) <- on_reply Out A w1 e self id (ROk d) ;;
   '(w3, _) <- go Out A n w2 e (JSubs self more) ;; go Out A n w3 e (JSubs self [])).
Proof. intros H. cbn [go sm_msg sm_reply]. rewrite H. reflexivity. Qed.

Lemma ask_runs n (w : world X) e s id p pl :
  wired A w -> oget (ct_proposals (w_ctl w)) id = Some p -> pi_executed_at p = None ->
  (forall t, pi_earliest p = Some t -> t <= e_time e) ->
  oget (g_polls (w_gov w)) id = Some pl -> p_ends_at pl <= e_time e ->
  restricted_by Out A w (a_enterprise A) s = Ok false ->
  forall total, total = weight_then w (pi_type p) (p_ends_at pl) -> total <> 0 ->
  forall v, v = final_status pl total ->
  go Out A (S (S (S (S n)))) w e (JMsg s (ask_resolution A id)) =
    (' (w', _) <- go Out A (S (S n)) (judged A w e s id p pl total v) e (JSubs (a_controller A) (follow_up A id p v)) ;; Ok (w', None)).
Proof.
  intros W Hp He Ht Hpl Hend Hr total ET HT v EV.
  destruct (wired_components Out A w W) as (att & HC). pose proof (wi_of _ _ W) as Hen.
  set (early := match pi_type p with General => gc_allow_early (ct_config (w_ctl w)) | Council => true end).
  unfold ask_resolution. rewrite go_call. rewrite HF. cbn [bind].
  set (m0 := WasmExecute (a_controller A) (ToController (CExecuteProposal id)) []).
  assert (E1 : handle Out A (S (S (S n))) (set_ext (note w s m0) (w_ext w)) e s (a_controller A) (ToController (CExecuteProposal id)) [] =
    Ok (set_ctl (note w s m0) (with_executing (w_ctl w) (Some id)),
        [mk_sub (WasmExecute (a_governance A) (ToGovernance (GEndPoll id total false early)) []) (ReplySuccess 2)], None)).
  { unfold handle. rewrite N.eqb_refl.
    assert (E1 : ctl_execute (ctl_oracle_of Out A (set_ext (note w s m0) (w_ext w))) (a_controller A) (w_ctl w) e s [] (CExecuteProposal id) =
      Ok (with_executing (w_ctl w) (Some id), [mk_sub (WasmExecute (a_governance A) (ToGovernance (GEndPoll id total false early)) []) (ReplySuccess 2)])).
    { apply (execute_proposal_ok _ _ _ _ _ _ _ _ _ (wiring_of A att)); [exact HC|]. exists p, pl, total.
      split; [cbn; rewrite Hen; exact Hr|]. split; [exact Hp|]. split; [exact He|]. split; [exact Ht|].
      split; [cbn; unfold gov_at; rewrite N.eqb_refl; cbn [bind]; unfold query_poll; cbn; rewrite Hpl; reflexivity|].
      split.
      { rewrite (proj2 (N.leb_le _ _) Hend), ET. unfold total_for, weight_then. cbn. unfold members_at. destruct (pi_type p); cbn [c_membership c_council wiring_of].
        - rewrite N.eqb_refl. reflexivity.
        - rewrite (proj2 (N.eqb_neq _ _)) by (apply council_not_member; exact HA). rewrite N.eqb_refl. reflexivity. }
      split; [exact HT|]. split; reflexivity. }
    cbn [w_ctl set_ext note] in *. rewrite E1. reflexivity. }
  rewrite E1. clear E1. cbn [bind].
  set (w1 := set_ctl (note w s m0) (with_executing (w_ctl w) (Some id))).
  set (m1 := WasmExecute (a_governance A) (ToGovernance (GEndPoll id total false early)) []).
  set (w2 := set_gov (note w1 (a_controller A) m1) (set_poll (w_gov w) id (with_status pl v))).
  assert (E2 : go Out A (S (S n)) w1 e (JMsg (a_controller A) m1) = Ok (w2, None)).
  { unfold m1. rewrite go_call, HF. cbn [bind]. unfold handle. rewrite (proj2 (N.eqb_neq _ _)) by (apply gov_not_ctl; exact HA). rewrite N.eqb_refl.
    assert (E2 : gov_execute (w_gov w) e (a_controller A) (GEndPoll id total false early) = Ok (set_poll (w_gov w) id (with_status pl v), None)).
    { unfold gov_execute. rewrite (wi_admin _ _ W), N.eqb_refl. cbn [guard bind]. unfold end_poll. rewrite Hpl. cbn [ok_or bind].
      unfold validate_can_end_early, validate_voting_period_ended.
      rewrite (proj2 (N.leb_le _ _) Hend), (proj2 (N.ltb_ge _ _) Hend), EV. destruct early; reflexivity. }
    cbn [w_gov set_ext note w1 set_ctl]. rewrite E2. cbn [bind]. rewrite go_none. reflexivity. }
  rewrite (go_success _ _ _ _ _ _ _ _ E2).
  assert (E3 : on_reply Out A w2 e (a_controller A) 2 (ROk None) = Ok (judged A w e s id p pl total v, follow_up A id p v)).
  { unfold on_reply. rewrite N.eqb_refl. unfold ctl_reply. cbn [N.eqb Pos.eqb].
    change (ct_executing (w_ctl w2)) with (Some id). cbn [ok_or bind].
    rewrite (resolve_follows _ A att _ _ _ p (with_status pl v)).
    - reflexivity.
    - exact HC.
    - unfold ctl_poll. change (co_components (ctl_oracle_of Out A w2)) with (co_components (ctl_oracle_of Out A w)). rewrite HC. cbn [bind].
      cbn [co_poll ctl_oracle_of c_governance wiring_of]. unfold gov_at. rewrite N.eqb_refl. cbn [bind]. unfold query_poll.
      change (g_polls (w_gov w2)) with (oset (g_polls (w_gov w)) id (with_status pl v)). rewrite oget_oset_eq. reflexivity.
    - exact Hp.
    - intros t. cbn [with_status p_status]. rewrite EV. apply final_status_not_in_progress. }
  rewrite E3. cbn [bind]. destruct (go Out A (S (S n)) (judged A w e s id p pl total v) e (JSubs (a_controller A) (follow_up A id p v))) as [[w' d]|x]; [|reflexivity].
  cbn [bind]. rewrite go_none. reflexivity.
Qed.

Lemma follow_concluded (w1 w' : world X) e id p v : (forall t, v <> InProgress t) ->
  (exists n, go Out A n w1 e (JSubs (a_controller A) (follow_up A id p v)) = Ok (w', None)) <-> concluded Out A e id (handed A p v) v w1 w'.
Proof.
  intros HV. unfold follow_up, concluded. destruct v as [t|o k|r]; [destruct (HV t eq_refl)| |]; cbn [app].
  - split.
    + intros (n & H). destruct n as [|[|n]]; [discriminate|discriminate|]. rewrite actions_isolated in H by lia.
      destruct (go Out A (S n) w1 e (JMsg (a_controller A) (run_order A id))) as [[w2 d]|x] eqn:E.
      * exists w2. split; [eauto|]. exists (S n). left. eauto.
      * exists w1. split; [exists (S n); destruct x; (discriminate || exact H)|]. exists (S n). right. split; [reflexivity|]. exists x.
        split; [exact E|]. intros ->. discriminate.
    + intros (w2 & (k1 & H1) & k2 & H2). exists (S (S (k1 + k2))). rewrite actions_isolated by lia.
      destruct H2 as [(d & H2)|(-> & x & H2 & Hx)].
      * rewrite (go_more Out A k2 (S (k1 + k2)) _ _ _ _ H2) by (discriminate || lia). eapply go_more; [exact H1|discriminate|lia].
      * rewrite (go_more Out A k2 (S (k1 + k2)) _ _ _ _ H2) by (congruence || lia).
        destruct x; try (eapply go_more; [exact H1|discriminate|lia]). congruence.
  - split; [intros (n & H); exists w1; eauto|intros (w2 & H & ->); exact H].
Qed.

(** Past the end: whether and how a request to resolve the proposal succeeds. *)
Lemma ask_exact (w : world X) e s id p pl w' :
  wired A w -> oget (ct_proposals (w_ctl w)) id = Some p -> pi_executed_at p = None ->
  (forall t, pi_earliest p = Some t -> t <= e_time e) ->
  oget (g_polls (w_gov w)) id = Some pl -> p_ends_at pl <= e_time e ->
  restricted_by Out A w (a_enterprise A) s = Ok false ->
  let total := weight_then w (pi_type p) (p_ends_at pl) in
  let v := final_status pl total in
  (exists n d, go Out A n w e (JMsg s (ask_resolution A id)) = Ok (w', d)) <->
  total <> 0 /\ concluded Out A e id (handed A p v) v (judged A w e s id p pl total v) w'.
Proof.
  intros W Hp He Ht Hpl Hend Hr total v.
  assert (HV : forall t, v <> InProgress t) by (intros t; apply final_status_not_in_progress).
  destruct (N.eq_dec total 0) as [E0|HT].
  - split; [|intros (H & _); contradiction]. intros (n & d & H). exfalso. destruct n as [|n]; [discriminate|].
    unfold ask_resolution in H. rewrite go_call, HF in H. cbn [bind] in H. unfold handle in H. rewrite N.eqb_refl in H.
    destruct (wired_components Out A w W) as (att & HC).
    set (w0 := set_ext _ _) in H.
    pose proof (unresolvable_without_weight (ctl_oracle_of Out A w0) (wiring_of A att) (w_ctl w) (a_controller A) e id p pl s []) as U.
    assert (F : is_ok (ctl_execute (ctl_oracle_of Out A w0) (a_controller A) (w_ctl w) e s [] (CExecuteProposal id)) = false).
    { apply U; [exact HC|exact Hp| |exact Hend|].
      - cbn. unfold gov_at. rewrite N.eqb_refl. cbn [bind]. unfold query_poll. cbn. rewrite Hpl. reflexivity.
      - rewrite <- E0. unfold total_for, total, weight_then. cbn. unfold members_at. destruct (pi_type p); cbn [c_membership c_council wiring_of].
        + rewrite N.eqb_refl. reflexivity.
        + rewrite (proj2 (N.eqb_neq _ _)) by (apply council_not_member; exact HA). rewrite N.eqb_refl. reflexivity. }
    change (w_ctl w0) with (w_ctl w) in H. destruct (ctl_execute _ _ _ _ _ _ _); [discriminate F|discriminate H].
  - rewrite <- (follow_concluded _ _ _ _ _ _ HV). split.
    + intros (n & d & H). split; [exact HT|]. apply (go_more Out A n (S (S (S (S n))))) in H; [|discriminate|lia].
      rewrite (ask_runs n w e s id p pl W Hp He Ht Hpl Hend Hr total eq_refl HT v eq_refl) in H. apply bind_ok in H. destruct H as ([w2 d2] & H1 & H2).
      inversion H2; subst. exists (S (S n)). rewrite H1. f_equal. f_equal. exact (subs_data _ _ _ _ _ _ _ _ _ _ H1).
    + intros (_ & n & H). exists (S (S (S (S n)))), None.
      rewrite (ask_runs n w e s id p pl W Hp He Ht Hpl Hend Hr total eq_refl HT v eq_refl).
      rewrite (go_more Out A n (S (S n)) _ _ _ _ H) by (discriminate || lia). reflexivity.
Qed.

End Ask.
