(** Lemmas about the facade: execution of proposals and the agreement of its answers. *)
From Verif Require Import Base OMap OMapLemmas Assets PollModel PollSpec PollProofs FundsModel MemberModel MemberSpec MemberProofs MemberFacts Msgs
  ControllerModel ControllerSpec ControllerProofs ControllerFacts TreasuryModel EnterpriseModel OutpostsModel
  WorldModel WorldSpec WorldProofs LiftSpec LiftFacts LiveResults FacadeModel FacadeV1Model FacadeSpec FacadeProofs.

(** * Execution of proposals *)

Definition keyed_polls (g : gov) : Prop := forall id p, oget (g_polls g) id = Some p -> p_id p = id.

Lemma results_id p o n : p_id (increase_results p o n) = p_id p.
Proof. unfold increase_results. destruct (oget (p_results p) (outcome_u8 o)); reflexivity. Qed.
Lemma results_id' p o n : p_id (decrease_results p o n) = p_id p.
Proof. unfold decrease_results. destruct (oget (p_results p) (outcome_u8 o)); reflexivity. Qed.

Lemma cast_keyed g e id o voter n g' : keyed_polls g -> cast_vote g e id o voter n = Ok g' -> keyed_polls g'.
Proof.
  intros HK H. unfold cast_vote in H. step H. step H. step H. step H. step H. step H. inversion H; subst. clear H.
  assert (Hp : oget (g_polls g) id = Some x1) by (destruct (oget (g_polls g) id); cbn in Hx1; inversion Hx1; reflexivity).
  assert (E : p_id x4 = id).
  { destruct (get_vote g x0 id) as [old|].
    - step Hx4. inversion Hx4; subst. rewrite results_id, results_id'. apply HK. exact Hp.
    - inversion Hx4; subst. rewrite results_id. apply HK. exact Hp. }
  intros i p. cbn [g_polls set_poll set_vote]. rewrite oget_oset. destruct (N.eqb_spec id i) as [->|]; [intros Q; inversion Q; congruence|apply HK].
Qed.

Lemma execute_keyed g e s m g' r : keyed_polls g -> gov_execute g e s m = Ok (g', r) -> keyed_polls g'.
Proof.
  intros HK H. unfold gov_execute in H. step H. destruct m; step H; inversion H; subst; clear H.
  - unfold create_poll in Hx0. step Hx0. step Hx0. inversion Hx0; subst. intros i p. cbn [g_polls]. rewrite oget_oset.
    destruct (N.eqb_spec (u64_add (g_count g) 1) i) as [E|]; [intros Q; inversion Q; exact E|apply HK].
  - eapply cast_keyed; eassumption.
  - unfold update_votes in Hx0. step Hx0. clear Hx1 Hx. revert g HK Hx0. induction x0 as [|v vs IH]; intros g HK H; cbn [fold_res] in H; [inversion H; subst; exact HK|].
    apply bind_ok in H. destruct H as (g1 & H1 & H). apply (IH g1); [|exact H].
    unfold update_vote in H1. apply bind_ok in H1. destruct H1 as (q & _ & H1). destruct (p_status q); [|inversion H1; subst; exact HK..].
    destruct (e_time e <? ends_at); [|inversion H1; subst; exact HK]. apply bind_ok in H1. destruct H1 as (? & _ & H1). eapply cast_keyed; eassumption.
  - unfold end_poll in Hx0. step Hx0. step Hx0. step Hx0. inversion Hx0; subst. intros i p. cbn [g_polls set_poll]. rewrite oget_oset.
    destruct (N.eqb_spec id i) as [->|]; [|apply HK]. intros Q; inversion Q. cbn. apply HK. destruct (oget (g_polls g) i); cbn in Hx1; inversion Hx1; reflexivity.
Qed.

Lemma history_keyed X (Out : outside X) A w0 ts w : new_dao A w0 -> w = world_run Out A w0 ts -> keyed_polls (w_gov w).
Proof.
  intros HN HW. destruct (governance_history X Out A w0 ts w HN HW) as (css & _ & E & _). rewrite E.
  assert (H0 : keyed_polls (w_gov w0)) by (rewrite (nd_governance _ _ HN); intros id p; cbn; rewrite oget_empty; discriminate).
  revert H0. generalize (w_gov w0). generalize (concat css). clear. induction l as [|c cs IH]; intros g H; [exact H|]. cbn. apply IH.
  unfold gov_step. destruct (gov_execute g (gc_env c) (gc_sender c) (gc_msg c)) as [[g' r]|] eqn:E; [|exact H]. eapply execute_keyed; eassumption.
Qed.

Lemma oracle_components {X} (Out : outside X) A (w : world X) : wired A w ->
  exists att, co_components (ctl_oracle_of Out A w) = Ok (wiring_of A att) /\ components_by A w (a_enterprise A) = Ok (wiring_of A att).
Proof. intros HW. destruct (wired_by A w HW) as (att & E). exists att. split; [|exact E]. cbn. rewrite (wi_of _ _ HW). exact E. Qed.

Lemma poll_seen {X} (Out : outside X) A (w : world X) id pl : wired A w -> ctl_poll (ctl_oracle_of Out A w) id = Ok pl <-> oget (g_polls (w_gov w)) id = Some pl.
Proof.
  intros HW. destruct (oracle_components Out A w HW) as (att & E & _). unfold ctl_poll. rewrite E. cbn. unfold gov_at. rewrite N.eqb_refl. cbn [bind].
  unfold query_poll. destruct (oget (g_polls (w_gov w)) id) as [p|]; cbn; split; intros H; inversion H; reflexivity.
Qed.

Lemma controller_seen {X} A (w : world X) : wired A w -> v2_controller A w (a_enterprise A) = Ok (w_ctl w).
Proof.
  intros HW. destruct (wired_by A w HW) as (att & E). unfold v2_controller. rewrite E. cbn [bind wiring_of c_controller]. unfold controller_at. rewrite N.eqb_refl. reflexivity.
Qed.

Lemma proposal_seen {X} (Out : outside X) A (w : world X) e id v : wired A w -> keyed_polls (w_gov w) -> v2_proposal Out A w e (a_enterprise A) id = Ok v ->
  exists p pl, oget (ct_proposals (w_ctl w)) id = Some p /\ oget (g_polls (w_gov w)) id = Some pl /\
    fp_id v = id /\ fp_type v = pi_type p /\ fp_actions v = pi_actions p /\ fp_results v = p_results pl /\ fp_expires v = AtTime (p_ends_at pl) /\
    fix_poll_status (ctl_oracle_of Out A w) (w_ctl w) id (p_status pl) (e_time e) p = Ok (fp_status v).
Proof.
  intros HW HK H. unfold v2_proposal in H. rewrite (controller_seen A w HW) in H. cbn [bind] in H. apply bind_ok in H. destruct H as (vw & H & E). inversion E; subst; clear E.
  unfold query_proposal in H. apply bind_ok in H. destruct H as (pl & Hpl & H). apply (poll_seen Out A w id pl HW) in Hpl. pose proof (HK _ _ Hpl) as Hid.
  unfold to_view in H. rewrite Hid in H. apply bind_ok in H. destruct H as (p & Hp & H). apply bind_ok in H. destruct H as (st & Hst & H). apply bind_ok in H. destruct H as (tot & _ & H).
  inversion H; subst; clear H. exists p, pl. cbn. repeat split; try assumption. destruct (oget (ct_proposals (w_ctl w)) (p_id pl)); cbn in Hp; inversion Hp; reflexivity.
Qed.

Lemma crossing_count l : length (filter crosses_chains l) = length (flat_map remote_chain l).
Proof.
  induction l as [|a l IH]; [reflexivity|]. cbn [filter flat_map]. rewrite app_length, <- IH.
  destruct a; try reflexivity; destruct target; reflexivity.
Qed.

Lemma execute_exact X (Out : outside X) A w0 ts w e id : new_dao A w0 -> w = world_run Out A w0 ts -> lasting w ->
  forall l, v2_adapt Out A w e (a_enterprise A) (AExecute id) = Ok l <->
    exists v p, v2_query Out A w e (a_enterprise A) (QProposal id) = Ok (AnProposal v) /\ oget (ct_proposals (w_ctl w)) id = Some p /\ l = execution A id (pi_actions p).
Proof.
  intros HN HW HL l. assert (HX : wired A w) by (subst w; apply run_wired; assumption). pose proof (history_keyed X Out A w0 ts w HN HW) as HK.
  destruct (wired_by A w HX) as (att & HC). cbn [v2_adapt v2_query]. unfold v2_execute.
  assert (G : forall v, v2_proposal Out A w e (a_enterprise A) id = Ok v -> exists p, oget (ct_proposals (w_ctl w)) id = Some p /\ fp_actions v = pi_actions p).
  { intros v Hv. apply (proposal_seen Out A w e id v HX HK) in Hv. destruct Hv as (p & pl & H1 & _ & _ & _ & H2 & _). eauto. }
  destruct (v2_proposal Out A w e (a_enterprise A) id) as [v|er]; cbn [bind].
  - destruct (G v eq_refl) as (p & Hp & Ha). rewrite HC. cbn [bind wiring_of c_controller c_outposts]. rewrite crossing_count, Ha. split.
    + intros H. exists v, p. split; [reflexivity|]. split; [exact Hp|]. inversion H; subst. unfold execution, call_controller, coins. destruct (N.of_nat _ =? 0); reflexivity.
    + intros (v' & p' & _ & Hp' & ->). rewrite Hp in Hp'. inversion Hp'; subst. unfold execution, call_controller, coins. destruct (N.of_nat _ =? 0); reflexivity.
  - split; [discriminate|]. intros (v & p & H & _). discriminate.
Qed.

(** * What leaves the chain *)

Lemma outposts_calls_app A a b : outposts_calls A (a ++ b) = outposts_calls A a + outposts_calls A b.
Proof. unfold outposts_calls. rewrite filter_app, app_length. lia. Qed.

Lemma own_calls A l : (forall m, In m l -> match m with WasmExecute to (ToOutposts _) _ => to <> a_outposts A | _ => True end) ->
  outposts_calls A (map (fun m => mk_sub m ReplyNever) l) = 0.
Proof.
  intros H. unfold outposts_calls. induction l as [|m l IH]; [reflexivity|]. cbn [map filter sm_msg].
  assert (IH' := IH (fun m' Hm => H m' (or_intror Hm))). specialize (H m (or_introl eq_refl)).
  destruct m; try exact IH'. match goal with wm : wasm_msg |- _ => destruct wm; try exact IH' end. apply N.eqb_neq in H. rewrite H. exact IH'.
Qed.

Lemma effects_calls A att t cur s l s' m : effects (wiring_of A att) t cur s l s' m ->
  (forall x msgs, In (PExecuteMsgs msgs) l -> In (Some x) msgs -> match x with WasmExecute to (ToOutposts _) _ => to <> a_outposts A | _ => True end) ->
  outposts_calls A m = N.of_nat (length (flat_map remote_chain l)).
Proof.
  intros H. induction H as [s|s a s1 m1 l s2 m2 HE HR IH]; intros HM; [reflexivity|].
  rewrite outposts_calls_app, IH by (intros x msgs Hi; apply HM; right; exact Hi). cbn [flat_map]. rewrite app_length.
  assert (E : outposts_calls A m1 = N.of_nat (length (remote_chain a))); [|lia].
  assert (HM1 : forall x msgs, a = PExecuteMsgs msgs -> In (Some x) msgs -> match x with WasmExecute to (ToOutposts _) _ => to <> a_outposts A | _ => True end)
    by (intros x msgs -> Hx; apply (HM x msgs); [left; reflexivity|exact Hx]).
  clear IH HR HM. destruct HE; try reflexivity;
    try (destruct target; unfold outposts_calls; cbn; rewrite ?N.eqb_refl; reflexivity).
  - destruct (gu_unlocking_period u); [|subst; reflexivity]. destruct H6 as (_ & ->). destruct t; reflexivity.
  - apply own_calls. intros x Hx. apply (HM1 x _ eq_refl). apply in_map. exact Hx.
  - unfold outposts_calls. cbn. rewrite N.eqb_refl. reflexivity.
Qed.

(** Running a proposal's actions calls the outposts contract once for each uluna of the adapted messages. *)
Lemma fees_match X (Out : outside X) A w0 ts w e id p l e' coins s' subs : new_dao A w0 -> w = world_run Out A w0 ts -> lasting w ->
  oget (ct_proposals (w_ctl w)) id = Some p -> no_own_calls A p ->
  v2_adapt Out A w e (a_enterprise A) (AExecute id) = Ok l ->
  ctl_execute (ctl_oracle_of Out A w) (a_controller A) (w_ctl w) e' (a_controller A) coins (CExecuteActions id) = Ok (s', subs) ->
  l = (if outposts_calls A subs =? 0 then [] else [BankSend (a_outposts A) [(ULUNA, outposts_calls A subs)]]) ++ [call_controller A (CExecuteProposal id)].
Proof.
  intros HN HW HL Hp HO HA H. assert (HX : wired A w) by (subst w; apply run_wired; assumption).
  apply (execute_exact X Out A w0 ts w e id HN HW HL) in HA. destruct HA as (v & q & _ & Hq & ->). rewrite Hp in Hq. inversion Hq; subst q. clear Hq.
  destruct (oracle_components Out A w HX) as (att & HC & HC').
  assert (E1 : co_dao_type (ctl_oracle_of Out A w) = Ok (en_type (w_enterprise w))) by (cbn; rewrite (wi_of _ _ HX); unfold enterprise_at; rewrite N.eqb_refl; reflexivity).
  assert (E2 : co_dao_version (ctl_oracle_of Out A w) = Ok (en_version (w_enterprise w))) by (cbn; rewrite (wi_of _ _ HX); unfold enterprise_at; rewrite N.eqb_refl; reflexivity).
  apply (actions_are_the_stored_ones _ _ _ _ _ _ _ _ _ _ _ HC E1 E2) in H. destruct H as (p' & Hp' & H). rewrite Hp in Hp'. inversion Hp'; subst p'.
  apply effects_calls in H; [unfold execution; rewrite H; reflexivity|].
  intros x msgs Hi Hx. apply HO. unfold customs. apply in_flat_map. exists (PExecuteMsgs msgs). split; [exact Hi|]. apply in_flat_map. exists (Some x). split; [exact Hx|left; reflexivity].
Qed.

Lemma to_proxy_sends o e m proxy x id r : to_proxy o e m proxy x id = Ok r -> sent_abroad ULUNA [r] = 1.
Proof. unfold to_proxy. intros H. apply bind_ok in H. destruct H as (t & _ & H). inversion H; subst. unfold sent_abroad. cbn. reflexivity. Qed.

Lemma call_sends_one o e s sender m s' subs : outposts_execute o e s sender m = Ok (s', subs) -> (forall id c, m <> OpCallback id c) -> sent_abroad ULUNA subs = 1.
Proof.
  intros H Hm. destruct m as [d|m x|id c]; cbn [outposts_execute] in H.
  - unfold op_deploy in H. step H. step H. destruct (oget (op_proxies s) (x_chain (dt_spec d))) as [proxy|].
    + apply bind_ok in H. destruct H as ([s1 r] & H1 & H). inversion H; subst. unfold instantiate_remote_treasury in H1. apply bind_ok in H1. destruct H1 as (r' & H1 & H2). inversion H2; subst.
      eapply to_proxy_sends. exact H1.
    + step H. apply bind_ok in H. destruct H as (r & H1 & H). inversion H; subst. eapply to_proxy_sends. exact H1.
  - unfold op_execute_treasury in H. step H. step H. step H. apply bind_ok in H. destruct H as (r & H1 & H). inversion H; subst. eapply to_proxy_sends. exact H1.
  - destruct (Hm id c eq_refl).
Qed.

Lemma callback_sends o e s sender id c s' subs : outposts_execute o e s sender (OpCallback id c) = Ok (s', subs) ->
  exists cb, oget (op_callbacks s) id = Some cb /\ sent_abroad ULUNA subs = match cb_type cb with CbProxy _ => 1 | CbTreasury _ => 0 end.
Proof.
  intros H. cbn [outposts_execute] in H. unfold op_callback in H. apply bind_ok in H. destruct H as (cb & Hcb & H). exists cb.
  split; [destruct (oget (op_callbacks s) id); cbn in Hcb; inversion Hcb; reflexivity|]. step H. step H. step H. destruct (cb_type cb).
  - step H. step H. apply bind_ok in H. destruct H as ([s1 r] & H1 & H). step H. inversion H; subst.
    unfold instantiate_remote_treasury in H1. apply bind_ok in H1. destruct H1 as (r' & H1 & H2). inversion H2; subst. eapply to_proxy_sends. exact H1.
  - step H. step H. step H. inversion H; subst. reflexivity.
Qed.
