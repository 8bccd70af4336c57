(** The controller properties, in the form in which they are stated. *)
From Verif Require Import Base OMap OMapLemmas Assets PollModel PollSpec PollProofs PollFacts FundsModel MemberModel Msgs
  ControllerModel ControllerSpec ControllerProofs.

(** * C27 *)

Lemma executed_not_again o self s e sender coins id p b :
  oget (ct_proposals s) id = Some p -> pi_executed_at p = Some b ->
  is_ok (ctl_execute o self s e sender coins (CExecuteProposal id)) = false.
Proof.
  intros Hp Hb. cbn. unfold execute_proposal. destruct (unrestricted o sender); cbn; [|reflexivity].
  rewrite Hp. cbn. rewrite Hb. reflexivity.
Qed.

Lemma resolve_ok o self s e id s' out :
  resolve_ended o self s e id = Ok (s', out) ->
  exists pl p, ctl_poll o id = Ok pl /\ oget (ct_proposals s) id = Some p /\ (forall t, p_status pl <> InProgress t) /\
    s' = set_executed s e id p.
Proof.
  unfold resolve_ended. intros H. cb. destruct (p_status x) eqn:E; cb; do 2 eexists; repeat (split; [eassumption|]); split; try congruence; reflexivity.
Qed.

Lemma reply_vote_ok o s e s' out :
  reply_cast_vote o s e = Ok (s', out) ->
  exists id k, ct_voting s = Some (id, k) /\ out = [] /\
   (s' = with_voting s None \/
    exists p t earliest, oget (ct_proposals s) id = Some p /\ pi_type p = General /\
      ts_plus_seconds (e_time e) (gc_vote_duration (ct_config s) / 10) = Ok earliest /\ t <= earliest /\
      s' = with_proposals (with_voting s None) (oset (ct_proposals s) id
             (mk_info (pi_type p) (pi_executed_at p) (Some t) (pi_deposit p) (pi_actions p)))).
Proof.
  unfold reply_cast_vote. intros H. destruct (ct_voting s) as [[id k]|]; [|discriminate]. cbn [ok_or bind] in H.
  exists id, k. split; [reflexivity|].
  destruct (negb (gc_allow_early (ct_config (with_voting s None)))); [cb; auto|].
  apply bind_ok in H. destruct H as (t & _ & H). cbv beta in H.
  destruct (dao_type_eqb t DaoMultisig); [cb; auto|].
  apply bind_ok in H. destruct H as (p & Hp & H). cbv beta in H. apply ok_or_ok in Hp.
  destruct (proposal_type_eqb (pi_type p) Council) eqn:ET; [cb; auto|].
  apply bind_ok in H. destruct H as (total & _ & H). cbv beta in H.
  apply bind_ok in H. destruct H as ([st en] & _ & H). cbv beta iota in H.
  destruct (exec_status_eqb (exec_status_of st) k); [cb; auto|].
  apply bind_ok in H. destruct H as (ea & HE & H). cbv beta in H. injection H as <- <-. split; [reflexivity|]. right.
  cbn [with_voting ct_proposals ct_config] in *.
  exists p, (N.min ea en), ea. split; [assumption|]. split; [destruct (pi_type p); [reflexivity|discriminate]|].
  split; [assumption|]. split; [apply N.le_min_l|reflexivity].
Qed.

(** what a call (not a reply) does to the scratch state and the stored proposals *)
Lemma call_frame o self s e sender coins m s' out :
  ctl_execute o self s e sender coins m = Ok (s', out) ->
  ct_proposals s' = ct_proposals s /\ ct_enterprise s' = ct_enterprise s /\ ct_creation s' = ct_creation s /\
  (ct_executing s' = ct_executing s \/
   exists id p, m = CExecuteProposal id /\ ct_executing s' = Some id /\ oget (ct_proposals s) id = Some p /\ pi_executed_at p = None).
Proof.
  intros H. destruct m; cbn [ctl_execute] in H.
  - unfold create_proposal_coins in H. cb. apply create_frame in H. destruct H as (p & -> & _). cbn. auto.
  - unfold create_proposal_nft in H. cb.
    match goal with H : create_proposal _ _ _ _ _ _ = Ok _ |- _ => apply create_frame in H; destruct H as (p & -> & _) end. cbn. auto.
  - apply council_create_ok in H. destruct H as (cc & c & w & t & en & _ & _ & _ & _ & _ & _ & _ & _ & _ & -> & _). cbn. auto.
  - unfold ctl_cast_vote in H. cb. destruct x4. cb. cbn. auto.
  - unfold ctl_cast_council_vote in H. cb. auto.
  - unfold execute_proposal, end_proposal in H. cb. cbn. repeat (split; [reflexivity|]). right.
    do 2 eexists. split; [reflexivity|]. split; [reflexivity|]. split; [eassumption|].
    destruct (pi_executed_at _); [discriminate|reflexivity].
  - destruct hook as [[actions owner]|]; [|discriminate]. unfold create_proposal_cw20 in H. cb.
    apply create_frame in H. destruct H as (p & -> & _). cbn. auto.
  - unfold weights_changed in H. cb. destruct (sender =? c_council x); cb; auto.
  - unfold execute_actions in H. cb. apply run_actions_frame in H. destruct H as (A1 & A2 & A3 & A4 & A5 & A6 & A7). auto.
  - unfold deploy_initial in H. cb. destruct (dflt [] (ct_treasuries s)); cb; cbn; auto.
Qed.

Lemma record_step self s c s' out id p :
  ctl_handle self s c = Ok (s', out) ->
  oget (ct_proposals s) id = Some p ->
  cc_event c <> ReplyCtl 1 (ROk (Some id)) ->
  exists p', oget (ct_proposals s') id = Some p' /\ content p' = content p /\
    (pi_executed_at p' = pi_executed_at p \/
     exists r pl, cc_event c = ReplyCtl 2 r /\ ct_executing s = Some id /\ pi_executed_at p' = Some (cc_env c) /\
       ctl_poll (cc_oracle c) id = Ok pl /\ forall t, p_status pl <> InProgress t) /\
    (pi_earliest p' = pi_earliest p \/
     exists r k, cc_event c = ReplyCtl 4 r /\ ct_voting s = Some (id, k) /\ pi_type p = General).
Proof.
  intros H Hp Hne. unfold ctl_handle in H. destruct (cc_event c) as [sender coins m|rid r] eqn:EV.
  - apply call_frame in H. destruct H as (H & _). rewrite H. exists p. auto.
  - unfold ctl_reply in H. destruct (N.eqb_spec rid 1) as [->|N1].
    { cb. cbn [with_proposals with_creating ct_proposals]. destruct r as [d|]; [|discriminate]. clean.
      rewrite oget_oset_ne by (intros ->; congruence). exists p. auto. }
    destruct (N.eqb_spec rid 2) as [->|N2].
    { cb. apply resolve_ok in H. destruct H as (pl & p0 & H1 & H2 & H3 & ->). cbn [with_executing ct_proposals set_executed with_proposals] in *.
      rewrite oget_oset. destruct (N.eqb_spec x id) as [->|NE].
      - rewrite Hp in H2. injection H2 as <-. eexists. split; [reflexivity|]. split; [reflexivity|]. split; [|auto].
        right. exists r, pl. cbn. auto 8.
      - exists p. auto. }
    destruct (N.eqb_spec rid 3) as [->|N3]; [cb; exists p; auto|].
    destruct (N.eqb_spec rid 4) as [->|N4]; [|discriminate].
    apply reply_vote_ok in H. destruct H as (pid & k & H1 & _ & [->|(p0 & t & ea & H2 & H3 & _ & _ & ->)]).
    + cbn. exists p. auto.
    + cbn [with_proposals with_voting ct_proposals]. rewrite oget_oset. destruct (N.eqb_spec pid id) as [->|NE]; [|exists p; auto].
      rewrite Hp in H2. injection H2 as <-. eexists. split; [reflexivity|]. split; [reflexivity|]. split; [auto|].
      right. eauto.
Qed.

(** resolution is under way only for a proposal that was not executed when it was asked for *)
Lemma executing_step self s c s' out id :
  ctl_handle self s c = Ok (s', out) -> ct_executing s' = Some id ->
  ct_executing s = Some id \/
  exists sender coins p, cc_event c = CallCtl sender coins (CExecuteProposal id) /\
    oget (ct_proposals s) id = Some p /\ pi_executed_at p = None.
Proof.
  intros H HX. unfold ctl_handle in H. destruct (cc_event c) as [sender coins m|rid r].
  - apply call_frame in H. destruct H as (_ & _ & _ & [E|(id' & p & -> & E & H1 & H2)]); [left; congruence|].
    rewrite HX in E. injection E as <-. right. eauto 8.
  - unfold ctl_reply in H. left. destruct (rid =? 1); [cb; exact HX|]. destruct (rid =? 2).
    { cb. apply resolve_ok in H. destruct H as (pl & p0 & _ & _ & _ & ->). discriminate HX. }
    destruct (rid =? 3); [cb; exact HX|]. destruct (rid =? 4); [|discriminate].
    apply reply_vote_ok in H. destruct H as (pid & k & H1 & _ & [->|(p0 & t & ea & H2 & H3 & _ & _ & ->)]); exact HX.
Qed.

(** * C28 *)

Lemma actions_self_only o self s e sender coins id :
  sender <> self -> ctl_execute o self s e sender coins (CExecuteActions id) = Err EUnauthorized.
Proof. intros H. cbn. unfold execute_actions. rewrite (proj2 (N.eqb_neq _ _)) by assumption. reflexivity. Qed.

Lemma actions_are_the_stored_ones o self s e coins id c t cur s' out :
  co_components o = Ok c -> co_dao_type o = Ok t -> co_dao_version o = Ok cur ->
  ctl_execute o self s e self coins (CExecuteActions id) = Ok (s', out) <->
  exists p, oget (ct_proposals s) id = Some p /\ effects c t cur s (pi_actions p) s' out.
Proof.
  intros HC HT HV. cbn. unfold execute_actions. rewrite N.eqb_refl. cbn [guard bind].
  destruct (oget (ct_proposals s) id) as [p|]; cbn [ok_or bind].
  - rewrite (run_actions_effects o c t cur _ HC HT HV). cbn. split.
    + intros (m & -> & H). eauto.
    + intros (p' & E & H). injection E as <-. eauto.
  - split; [discriminate|]. intros (p & E & _). discriminate.
Qed.

(** messages of an action *)
Lemma action_msgs o s a s' out m r :
  run_action o s a = Ok (s', out) -> In (mk_sub m r) out ->
  (exists msgs, a = PExecuteMsgs msgs /\ In (Some m) msgs /\ r = ReplyNever) \/
  exists c wm, m = WasmExecute c wm [] /\ r = ReplyNever /\
    match wm with
    | ToEnterprise _ | ToMembership _ | ToTreasury _ | ToOutposts _ | ToFunds _ => True
    | _ => False
    end.
Proof.
  intros H HI. destruct a; cbn [run_action] in H; unfold act_gov_config, act_council, to_treasury in H; cb; cbn [In] in HI.
  all: try (destruct HI as [E|[]]; unfold plain in E; try destruct target; injection E as <- <-; right; eauto 8).
  - destruct (gu_unlocking_period u); cb; [|contradiction].
    destruct x; cbn [In] in HI; try contradiction; destruct HI as [E|[]]; unfold plain in E; injection E as <- <-; right; eauto 8.
  - apply in_map_iff in HI. destruct HI as (m0 & E & HI). unfold plain in E. injection E as -> <-.
    left. exists msgs. split; [reflexivity|]. split; [|reflexivity].
    apply map_some_parse in Hb. subst. apply in_map. assumption.
Qed.

Lemma actions_msgs o l : forall s acc s' out m r,
  fold_res (run_action_acc o) (s, acc) l = Ok (s', out) -> In (mk_sub m r) out ->
  In (mk_sub m r) acc \/
  (exists msgs, In (PExecuteMsgs msgs) l /\ In (Some m) msgs /\ r = ReplyNever) \/
  exists c wm, m = WasmExecute c wm [] /\ r = ReplyNever /\
    match wm with
    | ToEnterprise _ | ToMembership _ | ToTreasury _ | ToOutposts _ | ToFunds _ => True
    | _ => False
    end.
Proof.
  induction l as [|a l IH]; intros s acc s' out m r H HI; cbn [fold_res] in H.
  - cb. auto.
  - unfold run_action_acc in H at 1. cbn [fst snd] in H. cb.
    destruct (IH _ _ _ _ _ _ H HI) as [HA|[(msgs & H1 & H2)|HA]].
    + apply in_app_or in HA. destruct HA as [HA|HA]; [auto|]. right.
      destruct (action_msgs _ _ _ _ _ _ _ Hb0 HA) as [(msgs & -> & H1 & H2)|H1]; [left; exists msgs; cbn; auto|auto].
    + right. left. exists msgs. cbn. auto.
    + auto.
Qed.

Ltac nomsg HI := repeat (destruct HI as [HI|HI]; [unfold plain in HI; try discriminate HI|]); try contradiction.

(** messages of a call other than running actions *)
Lemma call_msgs o self s e sender coins m s' out cm r :
  ctl_execute o self s e sender coins m = Ok (s', out) -> In (mk_sub cm r) out ->
  (forall id, m <> CExecuteActions id) ->
  exists a wm, cm = WasmExecute a wm [] /\
    match wm with
    | ToGovernance _ | ToFunds (FUpdateUserWeights _) | ToOutposts (OpDeploy _) => True
    | ToCw721 (Cw721Transfer to _) => to = self
    | _ => False
    end.
Proof.
  intros H HI Hm. destruct m; cbn [ctl_execute] in H.
  - unfold create_proposal_coins in H. cb. apply create_ok in H. destruct H as (c & w & t & en & _ & _ & _ & _ & _ & _ & _ & _ & ->).
    destruct HI as [E|[]]. injection E as <- <-. (do 2 eexists; split; [reflexivity|exact I]).
  - unfold create_proposal_nft in H. cb.
    match goal with H : create_proposal _ _ _ _ _ _ = Ok _ |- _ => apply create_ok in H; destruct H as (c & w & t & en & _ & _ & _ & _ & _ & _ & _ & _ & ->) end.
    destruct HI as [E|HI]; [injection E as <- <-; do 2 eexists; split; [reflexivity|exact I]|].
    match goal with H : map_res (take_nft _ _ _ _) _ = Ok _ |- _ => rename H into HM end.
    revert HM HI. clear. match goal with |- map_res (take_nft o self ?nft sender) tokens = Ok ?l -> _ => revert l; generalize nft end.
    intros nft. induction tokens as [|a t IH]; intros l HM HI; cbn [map_res] in HM; cb; [contradiction|].
    destruct HI as [E|HI]; [|eapply IH; eassumption].
    unfold take_nft in *. cb. unfold plain in *.
    match goal with E : mk_sub _ _ = mk_sub _ _ |- _ => injection E as <- <- end. do 2 eexists. split; [reflexivity|]. reflexivity.
  - apply council_create_ok in H. destruct H as (cc & c & w & t & en & _ & _ & _ & _ & _ & _ & _ & _ & _ & _ & ->).
    destruct HI as [E|[]]. injection E as <- <-. (do 2 eexists; split; [reflexivity|exact I]).
  - unfold ctl_cast_vote in H. cb. destruct x4. cb. destruct HI as [E|[]]. injection E as <- <-. (do 2 eexists; split; [reflexivity|exact I]).
  - unfold ctl_cast_council_vote in H. cb. destruct HI as [E|[]]. injection E as <- <-. (do 2 eexists; split; [reflexivity|exact I]).
  - unfold execute_proposal, end_proposal in H. cb. destruct HI as [E|[]]. injection E as <- <-. (do 2 eexists; split; [reflexivity|exact I]).
  - destruct hook as [[actions owner]|]; [|discriminate]. unfold create_proposal_cw20 in H. cb.
    apply create_ok in H. destruct H as (c & w & t & en & _ & _ & _ & _ & _ & _ & _ & _ & ->).
    destruct HI as [E|[]]. injection E as <- <-. (do 2 eexists; split; [reflexivity|exact I]).
  - unfold weights_changed in H. cb. destruct (sender =? c_council x); cb; [contradiction|].
    apply in_app_or in HI. destruct HI as [HI|[E|[]]].
    + apply in_map_iff in HI. destruct HI as (ch & E & _). injection E as <- <-. (do 2 eexists; split; [reflexivity|exact I]).
    + injection E as <- <-. (do 2 eexists; split; [reflexivity|exact I]).
  - destruct (Hm id eq_refl).
  - unfold deploy_initial in H. cb. destruct (dflt [] (ct_treasuries s)); cb; [contradiction|].
    destruct HI as [E|HI]; [injection E as <- <-; do 2 eexists; split; [reflexivity|exact I]|].
    apply in_map_iff in HI. destruct HI as (ch & E & _). injection E as <- <-. (do 2 eexists; split; [reflexivity|exact I]).
Qed.

Lemma send_deposit_plain a to cm r : In (mk_sub cm r) (send_deposit a to) ->
  r = ReplyNever /\ match cm with BankSend _ _ => True | WasmExecute _ (ToCw20 _) _ | WasmExecute _ (ToCw721 _) _ => True | _ => False end.
Proof.
  intros HI. destruct a; cbn in HI.
  - destruct HI as [E|[]]. injection E as <- <-. auto.
  - destruct HI as [E|[]]. injection E as <- <-. auto.
  - apply in_map_iff in HI. destruct HI as (t & E & _). injection E as <- <-. auto.
Qed.

Lemma actions_message_source self s c s' out a id f r :
  ctl_handle self s c = Ok (s', out) ->
  In (mk_sub (WasmExecute a (ToController (CExecuteActions id)) f) r) out ->
  (exists r' pl o n, cc_event c = ReplyCtl 2 r' /\ ct_executing s = Some id /\
     ctl_poll (cc_oracle c) id = Ok pl /\ p_status pl = Passed o n /\ a = self /\ f = [] /\ r = ReplyAlways 3) \/
  (exists coins id' p msgs, cc_event c = CallCtl self coins (CExecuteActions id') /\
     oget (ct_proposals s) id' = Some p /\ In (PExecuteMsgs msgs) (pi_actions p) /\
     In (Some (WasmExecute a (ToController (CExecuteActions id)) f)) msgs /\ r = ReplyNever).
Proof.
  intros H HI. unfold ctl_handle in H. destruct (cc_event c) as [sender coins m|rid r'] eqn:EV.
  - right. assert (HD : (exists id', m = CExecuteActions id') \/ forall id', m <> CExecuteActions id').
    { destruct m; try (right; discriminate). left. eauto. }
    destruct HD as [[id' ->]|Hm].
    + cbn in H. unfold execute_actions in H. cb. apply N.eqb_eq in Hb. subst sender.
      destruct (actions_msgs _ _ _ _ _ _ _ _ H HI) as [[]|[(msgs & H1 & H2 & H3)|(c0 & wm & E & _ & W)]].
      * exists coins, id'. do 2 eexists. split; [reflexivity|]. eauto 8.
      * injection E as _ E _. subst. destruct W.
    + destruct (call_msgs _ _ _ _ _ _ _ _ _ _ _ H HI Hm) as (a0 & wm & E & W). injection E as _ E _. subst. destruct W.
  - left. unfold ctl_reply in H. destruct (N.eqb_spec rid 1) as [->|N1]; [cb; contradiction|].
    destruct (N.eqb_spec rid 2) as [->|N2].
    2:{ destruct (rid =? 3); [cb; contradiction|]. destruct (rid =? 4); [|discriminate].
        apply reply_vote_ok in H. destruct H as (pid & k & _ & -> & _). contradiction. }
    cb. unfold resolve_ended in H. cb. destruct (p_status x0) eqn:ES; [discriminate| |].
    + cb. destruct HI as [E|HI].
      * injection E as <- <- <- <-. do 4 eexists. split; [reflexivity|]. eauto 10.
      * unfold return_deposit in HI. destruct (pi_deposit _); [|contradiction].
        apply send_deposit_plain in HI. destruct HI as [_ []].
    + cb. exfalso. destruct (pi_type x1); [|cb; contradiction].
      destruct reason; try (cb; unfold return_deposit in HI; destruct (pi_deposit x1); [|contradiction];
                            apply send_deposit_plain in HI; destruct HI as [_ []]).
      all: destruct (pi_deposit x1); cb; [|contradiction]; apply send_deposit_plain in HI; destruct HI as [_ []].
Qed.

(** * C29 *)

(** what the resolution of a proposal sends, exactly *)
Lemma resolution_messages o self s e r s' out id p pl c :
  ctl_reply o self s e 2 r = Ok (s', out) ->
  ct_executing s = Some id -> oget (ct_proposals s) id = Some p ->
  co_components o = Ok c -> ctl_poll o id = Ok pl ->
  exists acts dep, out = acts ++ dep /\
    acts = match p_status pl with
           | Passed _ _ => [mk_sub (WasmExecute self (ToController (CExecuteActions id)) []) (ReplyAlways 3)]
           | _ => []
           end /\
    match pi_deposit p with
    | None => dep = []
    | Some d =>
        pi_type p = General ->
        exists to, deposit_goes (c_treasury c) (dp_depositor d) (p_status pl) to /\ hands_over to (dp_asset d) dep
    end /\
    oget (ct_proposals s') id = Some (mk_info (pi_type p) (Some e) (pi_earliest p) (pi_deposit p) (pi_actions p)).
Proof.
  intros H HX Hp HC HP. unfold ctl_reply in H. cbn [N.eqb Pos.eqb] in H. rewrite HX in H. cbn [ok_or bind] in H.
  unfold resolve_ended in H. rewrite HP in H. cbn [bind] in H. cbn [with_executing ct_proposals] in H. rewrite Hp in H.
  cbn [ok_or bind] in H.
  destruct (p_status pl) as [t|oo n|reason] eqn:ES; [discriminate| |].
  - injection H as <- <-.
    exists [mk_sub (WasmExecute self (ToController (CExecuteActions id)) []) (ReplyAlways 3)]. eexists.
    split; [reflexivity|]. split; [reflexivity|].
    split; [|cbn [set_executed with_proposals ct_proposals with_executing]; rewrite oget_oset_eq; reflexivity].
    unfold return_deposit. destruct (pi_deposit p) as [d|]; [|reflexivity].
    intros _. exists (dp_depositor d). split; [constructor|apply send_deposit_hands_over].
  - apply bind_ok in H. destruct H as (msgs & HM & H). injection H as <- <-. exists [], msgs.
    split; [reflexivity|]. split; [reflexivity|].
    split; [|cbn [set_executed with_proposals ct_proposals with_executing]; rewrite oget_oset_eq; reflexivity].
    unfold return_deposit in HM. rewrite HC in HM. cbn [bind] in HM.
    destruct (pi_type p), (pi_deposit p) as [d|].
    + intros _. destruct reason; injection HM as <-; eexists; (split; [constructor|apply send_deposit_hands_over]).
    + destruct reason; injection HM as <-; reflexivity.
    + intros HG; discriminate HG.
    + injection HM as <-. reflexivity.
Qed.

Lemma no_other_payment self s c s' out m r :
  ctl_handle self s c = Ok (s', out) -> In (mk_sub m r) out -> pays_out self m ->
  (exists r', cc_event c = ReplyCtl 2 r') \/
  (exists coins id p msgs, cc_event c = CallCtl self coins (CExecuteActions id) /\
     oget (ct_proposals s) id = Some p /\ In (PExecuteMsgs msgs) (pi_actions p) /\ In (Some m) msgs).
Proof.
  intros H HI HP. unfold ctl_handle in H. destruct (cc_event c) as [sender coins cm|rid r'] eqn:EV.
  - right. assert (HD : (exists id', cm = CExecuteActions id') \/ forall id', cm <> CExecuteActions id').
    { destruct cm; try (right; discriminate). left. eauto. }
    destruct HD as [[id' ->]|Hm].
    + cbn in H. unfold execute_actions in H. cb. apply N.eqb_eq in Hb. subst sender.
      destruct (actions_msgs _ _ _ _ _ _ _ _ H HI) as [[]|[(msgs & H1 & H2 & H3)|(c0 & wm & -> & _ & W)]].
      * exists coins, id'. do 2 eexists. split; [reflexivity|]. eauto 8.
      * exfalso. destruct wm; try contradiction; exact HP.
    + exfalso. destruct (call_msgs _ _ _ _ _ _ _ _ _ _ _ H HI Hm) as (a0 & wm & -> & W).
      destruct wm as [| | |fm| | |om| |nm| | | |]; try contradiction; try (destruct fm; contradiction); try (destruct om; contradiction).
      destruct nm; contradiction.
  - unfold ctl_reply in H. destruct (rid =? 1); [cb; contradiction|].
    destruct (N.eqb_spec rid 2) as [->|N2]; [left; eauto|].
    destruct (rid =? 3); [cb; contradiction|]. destruct (rid =? 4); [|discriminate].
    apply reply_vote_ok in H. destruct H as (pid & k & _ & -> & _). contradiction.
Qed.

(** * C30 *)

Lemma execute_proposal_ok o self s e sender coins id s' out c :
  co_components o = Ok c ->
  ctl_execute o self s e sender coins (CExecuteProposal id) = Ok (s', out) <->
  exists p pl total,
    co_restricted o sender = Ok false /\ oget (ct_proposals s) id = Some p /\ pi_executed_at p = None /\
    (forall t, pi_earliest p = Some t -> t <= e_time e) /\
    co_poll o (c_governance c) id = Ok pl /\
    total_for o c (pi_type p) (if p_ends_at pl <=? e_time e then AtTime (p_ends_at pl) else Never) = Ok total /\
    total <> 0 /\
    s' = with_executing s (Some id) /\
    out = [mk_sub (WasmExecute (c_governance c)
             (ToGovernance (GEndPoll id total false
                (match pi_type p with General => gc_allow_early (ct_config s) | Council => true end))) [])
             (ReplySuccess 2)].
Proof.
  intros HC. cbn [ctl_execute]. unfold execute_proposal, end_proposal, ctl_poll, total_available. rewrite HC. cbn [bind].
  split.
  - intros H. cb. do 3 eexists. split; [eassumption|]. split; [eassumption|].
    split; [destruct (pi_executed_at _); [discriminate|reflexivity]|].
    split. { intros t Ht. rewrite Ht in *. match goal with H : guard _ ECannotExecuteYet = Ok _ |- _ => apply guard_ok, negb_true_iff, N.ltb_ge in H end. assumption. }
    split; [eassumption|].
    split. { unfold total_for. match goal with H : co_total _ _ _ = Ok _ |- _ => rewrite <- H end. destruct (pi_type _); reflexivity. }
    split. { match goal with H : negb (_ =? 0) = true |- _ => apply negb_true_iff, N.eqb_neq in H end. assumption. }
    split; [reflexivity|]. unfold allows_early. reflexivity.
  - intros (p & pl & total & HR & Hp & HE & HT & HP & HTT & HN & -> & ->).
    unfold unrestricted. rewrite HR. cbn [bind negb guard]. rewrite Hp. cbn [ok_or bind]. rewrite HE. cbn [is_some negb guard bind].
    destruct (pi_earliest p) as [t|] eqn:EE.
    + rewrite (proj2 (N.ltb_ge _ _)) by (apply HT; reflexivity). cbn [negb guard bind]. rewrite HP. cbn [bind].
      unfold total_for in HTT. destruct (pi_type p); rewrite HTT; cbn [bind];
        rewrite (proj2 (N.eqb_neq _ _)) by assumption; reflexivity.
    + cbn [bind]. rewrite HP. cbn [bind].
      unfold total_for in HTT. destruct (pi_type p); rewrite HTT; cbn [bind];
        rewrite (proj2 (N.eqb_neq _ _)) by assumption; reflexivity.
Qed.

Lemma resolved_in_time admin cs o self s e sender coins id s' out c a m f r g' d :
  history cs ->
  let g := gov_run (gov_init admin) cs in
  asks_governance o c g ->
  ctl_execute o self s e sender coins (CExecuteProposal id) = Ok (s', out) ->
  In (mk_sub (WasmExecute a (ToGovernance m) f) r) out ->
  gov_execute g e admin m = Ok (g', d) ->
  exists p pl, oget (ct_proposals s) id = Some p /\ query_poll g id = Ok pl /\
    (forall t, pi_earliest p = Some t -> t <= e_time e) /\
    (p_ends_at pl <= e_time e \/
     (e_time e < p_ends_at pl /\ (pi_type p = Council \/ gc_allow_early (ct_config s) = true) /\
      exists total, total_for o c (pi_type p) Never = Ok total /\
      (lsum v_amount (recorded_votes g id) < 2 ^ 128 -> lsum v_amount (recorded_votes g id) * DEC / total < 2 ^ 128 ->
       let yes := tally g id Yes in let no := tally g id No in
       let abstain := tally g id Abstain in let veto := tally g id Veto in
       reaches (yes + no + abstain + veto) total (p_quorum pl) /\
       (reaches veto (yes + no + veto) (dflt (p_threshold pl) (p_veto_threshold pl)) \/
        reaches yes (yes + no + veto) (p_threshold pl) \/ reaches no (yes + no + veto) (p_threshold pl))))).
Proof.
  intros HH g (HC & HP & HS) H HI HG.
  apply (execute_proposal_ok _ _ _ _ _ _ _ _ _ c HC) in H.
  destruct H as (p & pl & total & HR & Hp & HE & HT & HPL & HTT & HN & -> & ->).
  destruct HI as [E|[]]. injection E as <- <- <- <-. rewrite HP in HPL.
  exists p, pl. split; [assumption|]. split; [assumption|]. split; [assumption|].
  destruct (N.leb_spec (p_ends_at pl) (e_time e)) as [HL|HL]; [left; assumption|]. right.
  split; [assumption|].
  assert (HEarly : match pi_type p with General => gc_allow_early (ct_config s) | Council => true end = true).
  { unfold gov_execute in HG. rewrite (proj2 (N.eqb_eq admin (g_admin g))) in HG by (symmetry; apply admin_constant).
    cbn [guard bind] in HG. cb. apply end_poll_ok in Hb. destruct Hb as (pp & H1 & _ & H2 & _).
    apply query_poll_ok in HPL. rewrite HPL in H1. injection H1 as <-.
    destruct (match pi_type p with General => gc_allow_early (ct_config s) | Council => true end); [reflexivity|].
    exfalso. lia. }
  split. { destruct (pi_type p); auto. }
  exists total. split; [exact HTT|]. intros HL1 HL2.
  destruct (early_end_needs_decision admin cs e admin id total false _ g' d pl HH HPL HL HL1 HL2 HG) as (_ & H1 & H2).
  split; assumption.
Qed.

(** * C31 *)

(** the messages and the scratch record of a new proposal with the given deposit *)
Definition new_general (o : ctl_oracle) (c : components) (s : ctl) (e : env) (actions : list proposal_action)
    (d : option deposit) (proposer : addr) (s' : ctl) (out : list sub_msg) : Prop :=
  exists ends_at, e_time e + u64_mul (gc_vote_duration (ct_config s)) NANOS = ends_at /\
    s' = with_creating s (Some (mk_info General None None d actions)) /\
    out = [mk_sub (WasmExecute (c_governance c)
             (ToGovernance (GCreatePoll (mk_create proposer 0 ends_at (gc_quorum (ct_config s))
                (gc_threshold (ct_config s)) (gc_veto_threshold (ct_config s))))) []) (ReplySuccess 1)].

Definition may_propose (o : ctl_oracle) (c : components) (s : ctl) (proposer : addr) (amount : N) : Prop :=
  co_restricted o proposer = Ok false /\
  exists w, co_weight o (c_membership c) proposer = Ok w /\
    match gc_minimum_deposit (ct_config s) with
    | None => w <> 0
    | Some required => required <= amount
    end.

Lemma plus_seconds_ok t d x : ts_plus_seconds t d = Ok x -> t + u64_mul d NANOS = x.
Proof. unfold ts_plus_seconds, ts_plus_nanos. intros H. apply uint64_add_ok in H. destruct H as [-> _]. reflexivity. Qed.

Lemma create_requirements o s e actions d proposer s' out c :
  co_components o = Ok c ->
  create_proposal o s e actions d proposer = Ok (s', out) ->
  may_propose o c s proposer (match d with Some d => deposit_amount d | None => 0 end) /\
  new_general o c s e actions d proposer s' out /\ (length actions <= 10)%nat.
Proof.
  intros HC H. apply create_ok in H. destruct H as (c' & w & t & en & H1 & H2 & H3 & H4 & H5 & H6 & H7 & H8 & H9).
  rewrite HC in H2. injection H2 as <-. split; [|split].
  - split; [assumption|]. eauto.
  - exists en. split; [apply plus_seconds_ok; assumption|]. auto.
  - unfold validate_actions in H6. cb. apply Nat.leb_le in Hb. exact Hb.
Qed.

(** a proposal with the coins attached to the call *)
Lemma create_with_coins o self s e sender coins actions owner s' out c :
  co_components o = Ok c ->
  ctl_execute o self s e sender coins (CCreateProposal actions owner) = Ok (s', out) ->
  exists d,
    may_propose o c s sender (match d with Some d => deposit_amount d | None => 0 end) /\
    new_general o c s e actions d sender s' out /\
    match d with
    | None => True
    | Some d => exists denom amount, dp_asset d = DDenom denom amount /\ In (denom, amount) coins /\
        co_dao_type o = Ok DaoDenom /\ co_denom_config o (c_membership c) = Ok denom /\ dp_depositor d = dflt sender owner
    end.
Proof.
  intros HC H. cbn in H. unfold create_proposal_coins in H. cb.
  apply (create_requirements _ _ _ _ _ _ _ _ c HC) in H. destruct H as (H1 & H2 & _).
  exists x0. split; [assumption|]. split; [assumption|].
  destruct x; cb; try exact I. same. subst.
  destruct (find _ coins) as [[dn a]|] eqn:EF; [|exact I].
  apply find_some in EF. destruct EF as [EF1 EF2]. apply N.eqb_eq in EF2. cbn in EF2.
  unfold deposit_owner in *. destruct owner; cb; cbn; subst; eauto 10.
Qed.

(** a proposal with NFTs as deposit *)
Lemma approval_In u l : has_approval u l = Ok true -> In u l.
Proof.
  induction l as [|a t IH]; cbn; intros H; [discriminate|]. cb.
  destruct (N.eqb_spec a u) as [->|]; [auto|]. right. auto.
Qed.

Lemma takes_spec o self nft proposer tokens : forall l,
  map_res (take_nft o self nft proposer) tokens = Ok l ->
  l = map (fun t => mk_sub (WasmExecute nft (ToCw721 (Cw721Transfer self t)) []) ReplyNever) tokens /\
  forall t, In t tokens -> exists owner approvals, co_nft_owner o nft t = Ok (owner, approvals) /\
                                                   (owner = proposer \/ In proposer approvals).
Proof.
  induction tokens as [|t ts IH]; intros l H; cbn [map_res] in H.
  - cb. split; [reflexivity|]. contradiction.
  - apply bind_ok in H. destruct H as (m & H1 & H). apply bind_ok in H. destruct H as (ms & H2 & H). injection H as <-.
    apply IH in H2. destruct H2 as [-> H2]. unfold take_nft in H1. cb. subst. split; [reflexivity|].
    intros t' [<-|HI]; [|apply H2; assumption].
    unfold can_deposit_nft in Hb. apply bind_ok in Hb. destruct Hb as ([ow ap] & E & Hb). cb.
    do 2 eexists. split; [eassumption|].
    match goal with H : (if ?a =? proposer then _ else _) = Ok _ |- _ => destruct (N.eqb_spec a proposer); [auto|]; apply approval_In in H; auto end.
Qed.

Lemma create_with_nfts o self s e sender coins actions owner tokens s' out c :
  co_components o = Ok c ->
  ctl_execute o self s e sender coins (CCreateProposalNft actions owner tokens) = Ok (s', out) ->
  exists nft out1,
    co_dao_type o = Ok DaoNft /\ co_nft_config o (c_membership c) = Ok nft /\
    may_propose o c s sender (N.of_nat (length tokens)) /\
    new_general o c s e actions (Some (mk_deposit (dflt sender owner) (DCw721 nft tokens))) sender s' out1 /\
    out = out1 ++ map (fun t => mk_sub (WasmExecute nft (ToCw721 (Cw721Transfer self t)) []) ReplyNever) tokens /\
    NoDup tokens /\
    forall t, In t tokens -> exists o1 approvals, co_nft_owner o nft t = Ok (o1, approvals) /\
                                                  (o1 = sender \/ In sender approvals).
Proof.
  intros HC H. cbn [ctl_execute] in H. unfold create_proposal_nft in H. rewrite HC in H. cbn [bind] in H.
  apply bind_ok in H. destruct H as (t & HT & H). apply bind_ok in H. destruct H as (u1 & HG & H).
  apply bind_ok in H. destruct H as (u2 & HN & H). apply bind_ok in H. destruct H as (nft & Hnft & H).
  apply bind_ok in H. destruct H as (takes & Htk & H). apply bind_ok in H. destruct H as (dp & Hd & H).
  apply bind_ok in H. destruct H as ([s1 m1] & Hc & H). injection H as <- <-.
  apply guard_ok, dao_type_eqb_eq in HG. subst t. apply guard_ok, nodupb_NoDup in HN.
  apply takes_spec in Htk. destruct Htk as [-> Htk].
  apply (create_requirements _ _ _ _ _ _ _ _ c HC) in Hc. destruct Hc as (H1 & H2 & _). cbn in H1.
  assert (dp = dflt sender owner) as ->.
  { unfold deposit_owner in Hd. destruct owner; cb; reflexivity. }
  exists nft, m1. auto 10.
Qed.

(** a proposal with a cw20 deposit: only the DAO's own token, sent through the token contract *)
Lemma create_with_cw20 o self s e sender coins from amount hook s' out c :
  co_components o = Ok c ->
  ctl_execute o self s e sender coins (CReceive from amount hook) = Ok (s', out) ->
  exists actions owner,
    hook = Some (actions, owner) /\ co_dao_type o = Ok DaoToken /\ co_token_config o (c_membership c) = Ok sender /\
    may_propose o c s from amount /\
    new_general o c s e actions (Some (mk_deposit (dflt from owner) (DCw20 sender amount))) from s' out.
Proof.
  intros HC H. cbn [ctl_execute] in H. destruct hook as [[actions owner]|]; [|discriminate].
  unfold create_proposal_cw20 in H. rewrite HC in H. cbn [bind] in H.
  apply bind_ok in H. destruct H as (t & HT & H). apply bind_ok in H. destruct H as (tok & HK & H).
  apply bind_ok in H. destruct H as (u1 & HG & H). apply bind_ok in H. destruct H as (fr & HF & H).
  apply bind_ok in H. destruct H as (dp & HD & H).
  apply guard_ok, andb_true_iff in HG. destruct HG as [G1 G2]. apply dao_type_eqb_eq in G1. apply N.eqb_eq in G2. subst t tok.
  apply addr_validate_ok in HF. destruct HF as [<- HF].
  apply (create_requirements _ _ _ _ _ _ _ _ c HC) in H. destruct H as (H1 & H2 & _). cbn in H1.
  assert (dp = dflt from owner) as ->.
  { unfold deposit_owner in HD. destruct owner; cb; reflexivity. }
  exists actions, owner. auto 8.
Qed.

Lemma council_create_requirements o self s e sender coins actions s' out c :
  co_components o = Ok c ->
  ctl_execute o self s e sender coins (CCreateCouncilProposal actions) = Ok (s', out) ->
  exists cc w ends_at,
    ct_council s = Some cc /\ co_restricted o sender = Ok false /\
    co_weight o (c_council c) sender = Ok w /\ w <> 0 /\
    (forall a, In a actions -> In (action_type_of a) (cc_allowed cc)) /\ (length actions <= 10)%nat /\
    e_time e + u64_mul (gc_vote_duration (ct_config s)) NANOS = ends_at /\
    s' = with_creating s (Some (mk_info Council None None None actions)) /\
    out = [mk_sub (WasmExecute (c_governance c)
             (ToGovernance (GCreatePoll (mk_create sender 0 ends_at (cc_quorum cc) (cc_threshold cc)
                (gc_veto_threshold (ct_config s))))) []) (ReplySuccess 1)].
Proof.
  intros HC H. cbn in H. apply council_create_ok in H.
  destruct H as (cc & c' & w & t & en & H1 & H2 & H3 & H4 & H5 & H6 & H7 & H8 & H9 & H10 & H11).
  rewrite HC in H3. injection H3 as <-. exists cc, w, en. rewrite Forall_forall in H8.
  repeat (split; [assumption|]). split.
  - unfold validate_actions in H7. cb. apply Nat.leb_le in Hb. exact Hb.
  - split; [apply plus_seconds_ok; assumption|]. auto.
Qed.

(** the poll id that the governance contract reports becomes the id of exactly this proposal *)
Lemma creation_reply o self s e pid s' out :
  ctl_reply o self s e 1 (ROk (Some pid)) = Ok (s', out) <->
  exists p, ct_creating s = Some p /\ out = [] /\
    s' = with_proposals (with_creating s None) (oset (ct_proposals s) pid p).
Proof.
  unfold ctl_reply. cbn [N.eqb Pos.eqb ok_or bind]. split.
  - intros H. cb. eauto.
  - intros (p & -> & -> & ->). reflexivity.
Qed.

(** * C32 *)

Lemma vote_exact o self s e sender coins id out c s' msgs :
  co_components o = Ok c ->
  ctl_execute o self s e sender coins (CCastVote id out) = Ok (s', msgs) <->
  exists w p total st x,
    co_restricted o sender = Ok false /\ co_weight o (c_membership c) sender = Ok w /\ w <> 0 /\
    oget (ct_proposals s) id = Some p /\ pi_type p = General /\
    co_total o (c_membership c) Never = Ok total /\ co_simulate o (c_governance c) id total = Ok (st, x) /\
    s' = with_voting s (Some (id, exec_status_of st)) /\
    msgs = [mk_sub (WasmExecute (c_governance c) (ToGovernance (GCastVote id out sender w)) []) (ReplySuccess 4)].
Proof.
  intros HC. cbn [ctl_execute]. unfold ctl_cast_vote, user_votes, total_available, simulate. rewrite HC. cbn [bind]. split.
  - intros H.
    apply bind_ok in H. destruct H as (u0 & HR & H). apply unrestricted_ok in HR.
    apply bind_ok in H. destruct H as (w & HW & H). apply bind_ok in H. destruct H as (u1 & HN & H).
    apply bind_ok in H. destruct H as (p & Hp & H). apply bind_ok in H. destruct H as (u2 & HT & H).
    apply bind_ok in H. destruct H as (total & Htot & H). apply bind_ok in H. destruct H as ([st x] & Hs & H).
    injection H as <- <-. apply guard_ok, negb_true_iff, N.eqb_neq in HN. apply guard_ok, proposal_type_eqb_eq in HT.
    apply ok_or_ok in Hp. rewrite HT in Htot. exists w, p, total, st, x. auto 12.
  - intros (w & p & total & st & x & HR & HW & HN & Hp & HT & Htot & Hs & -> & ->).
    unfold unrestricted. rewrite HR. cbn [bind negb guard]. rewrite HW. cbn [bind].
    rewrite (proj2 (N.eqb_neq _ _)) by assumption. cbn [negb guard bind]. rewrite Hp. cbn [ok_or bind]. rewrite HT. cbn.
    rewrite Htot. cbn. rewrite Hs. reflexivity.
Qed.

Lemma council_vote_exact o self s e sender coins id out c s' msgs :
  co_components o = Ok c ->
  ctl_execute o self s e sender coins (CCastCouncilVote id out) = Ok (s', msgs) <->
  exists w p cc,
    co_restricted o sender = Ok false /\ ct_council s = Some cc /\ co_weight o (c_council c) sender = Ok w /\ w <> 0 /\
    oget (ct_proposals s) id = Some p /\ pi_type p = Council /\ s' = s /\
    msgs = [mk_sub (WasmExecute (c_governance c) (ToGovernance (GCastVote id out sender w)) []) ReplyNever].
Proof.
  intros HC. cbn [ctl_execute]. unfold ctl_cast_council_vote, council_weight. rewrite HC. cbn [bind]. split.
  - intros H.
    apply bind_ok in H. destruct H as (u0 & HR & H). apply unrestricted_ok in HR.
    apply bind_ok in H. destruct H as (cc & HCC & H). apply ok_or_ok in HCC.
    apply bind_ok in H. destruct H as (w & HW & H). apply bind_ok in H. destruct H as (u1 & HN & H).
    apply bind_ok in H. destruct H as (p & Hp & H). apply bind_ok in H. destruct H as (u2 & HT & H).
    injection H as <- <-. apply guard_ok, negb_true_iff, N.eqb_neq in HN. apply guard_ok, proposal_type_eqb_eq in HT.
    apply ok_or_ok in Hp. exists w, p, cc. auto 12.
  - intros (w & p & cc & HR & HCC & HW & HN & Hp & HT & -> & ->).
    unfold unrestricted. rewrite HR. cbn [bind negb guard]. rewrite HCC. cbn [ok_or bind]. rewrite HW. cbn [bind].
    rewrite (proj2 (N.eqb_neq _ _)) by assumption. cbn [negb guard bind]. rewrite Hp. cbn [ok_or bind]. rewrite HT. reflexivity.
Qed.

(** * C33, C35: histories *)

Lemma reply_frame o self s e id r s' out :
  ctl_reply o self s e id r = Ok (s', out) ->
  ct_config s' = ct_config s /\ ct_council s' = ct_council s /\ ct_enterprise s' = ct_enterprise s.
Proof.
  unfold ctl_reply. intros H. destruct (id =? 1); [cb; auto|]. destruct (id =? 2).
  { cb. apply resolve_ok in H. destruct H as (pl & p0 & _ & _ & _ & ->). auto. }
  destruct (id =? 3); [cb; auto|]. destruct (id =? 4); [|discriminate].
  apply reply_vote_ok in H. destruct H as (pid & k & _ & _ & [->|(p0 & t & ea & _ & _ & _ & _ & ->)]); auto.
Qed.

Lemma run_action_config o s a s' out (P : gov_config -> Prop) (Q : option council_config -> Prop) :
  (forall t g u, co_dao_type o = Ok t -> validate_gov_config t g = Ok u -> P g) ->
  (forall c x, validate_council c = Ok x -> Q x) ->
  run_action o s a = Ok (s', out) -> P (ct_config s) -> Q (ct_council s) -> P (ct_config s') /\ Q (ct_council s').
Proof.
  intros HP HQ H H1 H2. destruct a; cbn [run_action] in H; unfold act_gov_config, act_council, to_treasury in H; cb; auto.
  - cbn. split; [|assumption]. eapply HP; eassumption.
  - cbn. split; [assumption|]. eapply HQ; eassumption.
Qed.

Lemma call_config o self s e sender coins m s' out (P : gov_config -> Prop) (Q : option council_config -> Prop) :
  (forall t g u, co_dao_type o = Ok t -> validate_gov_config t g = Ok u -> P g) ->
  (forall c x, validate_council c = Ok x -> Q x) ->
  ctl_execute o self s e sender coins m = Ok (s', out) -> P (ct_config s) -> Q (ct_council s) ->
  P (ct_config s') /\ Q (ct_council s').
Proof.
  intros HP HQ H H1 H2. destruct m; cbn [ctl_execute] in H.
  - unfold create_proposal_coins in H. cb. apply create_frame in H. destruct H as (p & -> & _). auto.
  - unfold create_proposal_nft in H. cb.
    match goal with H : create_proposal _ _ _ _ _ _ = Ok _ |- _ => apply create_frame in H; destruct H as (p & -> & _) end. auto.
  - apply council_create_ok in H. destruct H as (cc & c & w & t & en & _ & _ & _ & _ & _ & _ & _ & _ & _ & -> & _). auto.
  - unfold ctl_cast_vote in H. cb. destruct x4. cb. auto.
  - unfold ctl_cast_council_vote in H. cb. auto.
  - unfold execute_proposal, end_proposal in H. cb. auto.
  - destruct hook as [[actions owner]|]; [|discriminate]. unfold create_proposal_cw20 in H. cb.
    apply create_frame in H. destruct H as (p & -> & _). auto.
  - unfold weights_changed in H. cb. destruct (sender =? c_council x); cb; auto.
  - unfold execute_actions in H. cb. clear Hb0. revert H. generalize (@nil sub_msg). revert s s' out H1 H2.
    induction (pi_actions x0) as [|a l IH]; intros s s' out H1 H2 acc H; cbn [fold_res] in H; [cb; auto|].
    unfold run_action_acc in H at 1. cbn [fst snd] in H. apply bind_ok in H. destruct H as ([s1 m1] & HA & H).
    apply bind_ok in HA. destruct HA as ([s2 m2] & HA & E). injection E as <- <-.
    destruct (run_action_config _ _ _ _ _ P Q HP HQ HA H1 H2). eapply IH; [| |exact H]; assumption.
  - unfold deploy_initial in H. cb. destruct (dflt [] (ct_treasuries s)); cb; auto.
Qed.

Definition council_ok (x : option council_config) : Prop :=
  forall cc, x = Some cc -> sane_council cc /\ Forall council_power (cc_allowed cc).

Lemma validate_council_sane c x : validate_council c = Ok x -> council_ok x.
Proof.
  intros H cc ->. destruct c as [c|].
  - apply validate_council_some in H. destruct H as (_ & _ & H3 & H4 & H5 & E). injection E as ->. cbn. split.
    + split; assumption.
    + apply default_powers. assumption.
  - discriminate H.
Qed.

Lemma handle_config self s c t s' out :
  (forall t', co_dao_type (cc_oracle c) = Ok t' -> t' = t) ->
  ctl_handle self s c = Ok (s', out) ->
  sane_config t (ct_config s) -> council_ok (ct_council s) ->
  sane_config t (ct_config s') /\ council_ok (ct_council s').
Proof.
  intros HT H H1 H2. unfold ctl_handle in H. destruct (cc_event c) as [sender coins m|id r].
  - eapply (call_config _ _ _ _ _ _ _ _ _ (sane_config t) council_ok); try eassumption.
    + intros t' g u Ht Hv. apply HT in Ht. subst t'. eapply validate_gov_config_ok. eassumption.
    + apply validate_council_sane.
  - apply reply_frame in H. destruct H as (-> & -> & _). auto.
Qed.

Lemma step_config self t cs : forall s,
  (forall c t', In c cs -> co_dao_type (cc_oracle c) = Ok t' -> t' = t) ->
  sane_config t (ct_config s) -> council_ok (ct_council s) ->
  sane_config t (ct_config (ctl_run self s cs)) /\ council_ok (ct_council (ctl_run self s cs)).
Proof.
  induction cs as [|c cs IH]; intros s HT H1 H2; [cbn; auto|].
  change (ctl_run self s (c :: cs)) with (ctl_run self (fst (ctl_step self s c)) cs).
  assert (HH : sane_config t (ct_config (fst (ctl_step self s c))) /\ council_ok (ct_council (fst (ctl_step self s c)))).
  { unfold ctl_step. destruct (ctl_handle self s c) as [[s' out]|] eqn:E; [|auto].
    eapply handle_config; try eassumption. intros t' Ht. eapply HT; [left; reflexivity|exact Ht]. }
  destruct HH as [HA HB]. apply IH; try assumption. intros c' t' Hc. apply HT. right. assumption.
Qed.

Lemma instantiate_config e en t g council infos tr s :
  ctl_instantiate e en t g council infos tr = Ok s ->
  sane_config t (ct_config s) /\ council_ok (ct_council s).
Proof.
  unfold ctl_instantiate. intros H.
  apply bind_ok in H. destruct H as (a & _ & H). apply bind_ok in H. destruct H as (u & HV & H).
  apply bind_ok in H. destruct H as (cc & HC & H). injection H as <-. cbn. split.
  - eapply validate_gov_config_ok. eassumption.
  - eapply validate_council_sane. eassumption.
Qed.

Lemma config_always_sane self e en t g council infos tr s cs :
  ctl_instantiate e en t g council infos tr = Ok s ->
  (forall c t', In c cs -> co_dao_type (cc_oracle c) = Ok t' -> t' = t) ->
  sane_config t (ct_config (ctl_run self s cs)) /\
  (forall cc, ct_council (ctl_run self s cs) = Some cc -> sane_council cc).
Proof.
  intros H HT. apply instantiate_config in H. destruct H as [H1 H2].
  destruct (step_config self t cs s HT H1 H2) as [HA HB]. split; [assumption|].
  intros cc Hcc. apply (HB cc Hcc).
Qed.

(** an update that would break it is rejected *)
Lemma insane_update_rejected o s u t :
  co_dao_type o = Ok t -> ~ sane_config t (apply_config (ct_config s) u) ->
  is_ok (run_action o s (PUpdateGovConfig u)) = false /\
  is_ok (validate_action o s t (PUpdateGovConfig u)) = false.
Proof.
  intros HT HN. cbn [run_action validate_action]. unfold act_gov_config. rewrite HT. cbn [bind].
  destruct (validate_gov_config t (apply_config (ct_config s) u)) eqn:E; [|auto].
  exfalso. apply HN. eapply validate_gov_config_ok. eassumption.
Qed.

(** * C34 *)

Lemma unlocking_checked o s u d t c s' out :
  co_dao_type o = Ok t -> co_components o = Ok c ->
  run_action o s (PUpdateGovConfig u) = Ok (s', out) -> gu_unlocking_period u = Change d ->
  forall secs, d = DTime secs -> gc_vote_duration (ct_config s') <= secs.
Proof.
  intros HT HC H HU secs ->. cbn [run_action] in H. unfold act_gov_config in H. rewrite HT, HC in H. cbn [bind] in H. cb.
  rewrite HU in *. cb. cbn in *.
  match goal with H : guard _ _ = Ok _ |- _ => apply guard_ok, negb_true_iff, N.ltb_ge in H | H : negb (_ <? _) = true |- _ => apply negb_true_iff, N.ltb_ge in H end.
  assumption.
Qed.

(** * C35 *)

Definition council_proposal_ok (p : proposal_info) : Prop :=
  pi_type p = Council -> pi_deposit p = None /\ Forall (fun a => council_power (action_type_of a)) (pi_actions p).

Definition powers_inv (s : ctl) : Prop :=
  council_ok (ct_council s) /\
  (forall p, ct_creating s = Some p -> council_proposal_ok p) /\
  (forall id p, oget (ct_proposals s) id = Some p -> council_proposal_ok p).

Lemma call_powers o self s e sender coins m s' out :
  ctl_execute o self s e sender coins m = Ok (s', out) -> powers_inv s -> powers_inv s'.
Proof.
  intros H (I1 & I2 & I3). split.
  { eapply (call_config _ _ _ _ _ _ _ _ _ (fun _ => True) council_ok); try eassumption; auto. apply validate_council_sane. }
  split.
  2:{ apply call_frame in H. destruct H as (H & _). rewrite H. assumption. }
  intros p Hp. destruct m; cbn [ctl_execute] in H.
  - unfold create_proposal_coins in H. cb. apply create_frame in H. destruct H as (q & -> & HG & _).
    cbn in Hp. injection Hp as <-. intros HCC. congruence.
  - unfold create_proposal_nft in H. cb.
    match goal with H : create_proposal _ _ _ _ _ _ = Ok _ |- _ => apply create_frame in H; destruct H as (q & -> & HG & _) end.
    cbn in Hp. injection Hp as <-. intros HCC. congruence.
  - apply council_create_ok in H. destruct H as (cc & c & w & t & en & _ & Hcc & _ & _ & _ & _ & _ & HA & _ & -> & _).
    cbn in Hp. injection Hp as <-. intros _. cbn. split; [reflexivity|].
    destruct (I1 cc Hcc) as [_ HP]. rewrite Forall_forall in HP |- *. rewrite Forall_forall in HA. auto.
  - unfold ctl_cast_vote in H. cb. destruct x4. cb. auto.
  - unfold ctl_cast_council_vote in H. cb. auto.
  - unfold execute_proposal, end_proposal in H. cb. auto.
  - destruct hook as [[actions owner]|]; [|discriminate]. unfold create_proposal_cw20 in H. cb.
    apply create_frame in H. destruct H as (q & -> & HG & _). cbn in Hp. injection Hp as <-. intros HCC. congruence.
  - unfold weights_changed in H. cb. destruct (sender =? c_council x); cb; auto.
  - unfold execute_actions in H. cb. apply run_actions_frame in H. destruct H as (_ & _ & _ & _ & E & _). rewrite E in Hp. auto.
  - unfold deploy_initial in H. cb. destruct (dflt [] (ct_treasuries s)); cb; auto.
Qed.

Lemma reply_powers o self s e id r s' out :
  ctl_reply o self s e id r = Ok (s', out) -> powers_inv s -> powers_inv s'.
Proof.
  intros H (I1 & I2 & I3). split.
  { apply reply_frame in H. destruct H as (_ & -> & _). assumption. }
  unfold ctl_reply in H. destruct (id =? 1).
  { cb. cbn. split; [discriminate|]. intros id' p Hp. rewrite oget_oset in Hp.
    destruct (_ =? _); [injection Hp as <-; auto|eauto]. }
  destruct (id =? 2).
  { cb. apply resolve_ok in H. destruct H as (pl & p0 & _ & Hq & _ & ->). cbn in *. split; [assumption|].
    intros id' p Hp. rewrite oget_oset in Hp. destruct (_ =? _); [|eauto]. injection Hp as <-. exact (I3 _ _ Hq). }
  destruct (id =? 3); [cb; auto|]. destruct (id =? 4); [|discriminate].
  apply reply_vote_ok in H. destruct H as (pid & k & _ & _ & [->|(p0 & t & ea & Hq & _ & _ & _ & ->)]); cbn; [auto|].
  split; [assumption|]. intros id' p Hp. rewrite oget_oset in Hp. destruct (_ =? _); [|eauto]. injection Hp as <-. exact (I3 _ _ Hq).
Qed.

Lemma powers_run self cs : forall s, powers_inv s -> powers_inv (ctl_run self s cs).
Proof.
  induction cs as [|c cs IH]; intros s H; [assumption|].
  change (ctl_run self s (c :: cs)) with (ctl_run self (fst (ctl_step self s c)) cs). apply IH.
  unfold ctl_step. destruct (ctl_handle self s c) as [[s' out]|] eqn:E; [|assumption].
  unfold ctl_handle in E. destruct (cc_event c); cbn [fst]; [eapply call_powers|eapply reply_powers]; eassumption.
Qed.

Lemma council_powers_bounded self e en t g council tr s cs :
  ctl_instantiate e en t g council [] tr = Ok s ->
  (forall cc ty, ct_council (ctl_run self s cs) = Some cc -> In ty (cc_allowed cc) -> council_power ty) /\
  (forall id p a, oget (ct_proposals (ctl_run self s cs)) id = Some p -> pi_type p = Council ->
     In a (pi_actions p) -> council_power (action_type_of a)).
Proof.
  intros H. assert (HI : powers_inv s).
  { destruct (instantiate_config _ _ _ _ _ _ _ _ H) as [_ H2]. split; [assumption|].
    unfold ctl_instantiate in H. cb. cbn. split; [discriminate|]. intros id p Hp. rewrite oget_empty in Hp. discriminate. }
  apply (powers_run self cs) in HI. destruct HI as (I1 & _ & I3). split.
  - intros cc ty Hcc Hi. destruct (I1 cc Hcc) as [_ HP]. rewrite Forall_forall in HP. auto.
  - intros id p a Hp HT Hi. destruct (I3 id p Hp HT) as [_ HP]. rewrite Forall_forall in HP. auto.
Qed.

(** what such actions can do *)
Definition council_message (c : components) (s : ctl) (m : sub_msg) : Prop :=
  exists a wm, m = mk_sub (WasmExecute a wm []) ReplyNever /\
    ((a = ct_enterprise s /\ ((exists u, wm = ToEnterprise (EnUpdateMetadata u)) \/ exists v l, wm = ToEnterprise (EnUpgradeDao v l))) \/
     (a = c_treasury c /\ ((exists x y, wm = ToTreasury (TrUpdateAssets x y)) \/ exists x y, wm = ToTreasury (TrUpdateNfts x y))) \/
     (a = c_outposts c /\ ((exists x y z, wm = ToOutposts (OpExecute (TrUpdateAssets x y) z)) \/
                           (exists x y z, wm = ToOutposts (OpExecute (TrUpdateNfts x y) z)) \/
                           exists d, wm = ToOutposts (OpDeploy d)))).

Lemma council_effects c t cur l : forall s s' out,
  effects c t cur s l s' out -> Forall (fun a => council_power (action_type_of a)) l ->
  s' = s /\ Forall (council_message c s) out.
Proof.
  induction l as [|a l IH]; intros s s' out H HF; inversion H; subst; [auto|].
  inversion HF as [|? ? HA HL]; subst.
  assert (HE : s1 = s /\ Forall (council_message c s) m1).
  { match goal with H : effect _ _ _ _ _ _ _ |- _ => inversion H; subst end; cbn in HA; try (inversion HA; fail).
    all: split; [reflexivity|]; constructor; [|constructor]; try (destruct target).
    all: do 2 eexists; (split; [reflexivity|]); eauto 12. }
  destruct HE as [-> HE]. match goal with H : effects _ _ _ _ _ _ _ |- _ => destruct (IH _ _ _ H HL) as [-> HO] end.
  split; [reflexivity|]. apply Forall_app. auto.
Qed.

(** * C40 *)

Section Status.
  Variables (admin : addr) (cs : list gov_call) (o : ctl_oracle) (c : components) (s : ctl) (self : addr).
  Let g := gov_run (gov_init admin) cs.
  Hypothesis HH : history cs.
  Hypothesis HO : asks_governance o c g.

  Lemma sim_eq id total p : query_poll g id = Ok p -> simulate o id total = Ok (final_status p total, p_ends_at p).
  Proof. destruct HO as (HC & _ & HS). intros HP. unfold simulate. rewrite HC. cbn [bind]. rewrite HS, HP. reflexivity. Qed.

  Lemma poll_eq id : ctl_poll o id = query_poll g id.
  Proof. destruct HO as (HC & HP & _). unfold ctl_poll. rewrite HC. cbn [bind]. apply HP. Qed.

  Lemma total_eq x ty : total_available o x ty = total_for o c ty x.
  Proof. destruct HO as (HC & _ & _). unfold total_available, total_for. rewrite HC. destruct ty; reflexivity. Qed.

  Lemma zero_total_rejected p : 0 < p_quorum p -> final_status p 0 = Rejected QuorumNotReached.
  Proof.
    intros Hq. unfold final_status, quorum_reached, ratio_or_zero, dec_checked_from_ratio. cbn [N.eqb].
    rewrite (proj2 (N.leb_gt _ _)) by assumption. reflexivity.
  Qed.

  Definition shown (st : poll_status) : proposal_status := match st with Passed _ _ => PSPassed | _ => PSRejected end.

  (** past its end: the status shown is the verdict that executing records *)
  Lemma status_after_end e id p pl st x sender coins s' out a m f r g' d :
    oget (ct_proposals s) id = Some p -> pi_executed_at p = None ->
    query_poll g id = Ok pl -> p_status pl = InProgress (p_ends_at pl) -> p_ends_at pl <= e_time e ->
    query_proposal_status o s (e_time e) id = Ok (st, x) ->
    ctl_execute o self s e sender coins (CExecuteProposal id) = Ok (s', out) ->
    In (mk_sub (WasmExecute a (ToGovernance m) f) r) out ->
    gov_execute g e admin m = Ok (g', d) ->
    exists pl', query_poll g' id = Ok pl' /\ st = shown (p_status pl') /\ ended pl'.
  Proof.
    intros Hp HE HP HS HL HQ H HI HG. destruct HO as (HC & HPO & _).
    apply (execute_proposal_ok _ _ _ _ _ _ _ _ _ c HC) in H.
    destruct H as (p' & pl0 & total & HR & Hp' & HE' & HT & HPL & HTT & HN & -> & ->).
    rewrite Hp in Hp'. injection Hp' as <-. rewrite HPO, HP in HPL. injection HPL as <-.
    destruct HI as [E|[]]. injection E as <- <- <- <-.
    rewrite (proj2 (N.leb_le _ _) HL) in HTT.
    destruct (simulation_exact _ _ _ _ _ _ _ _ _ HG) as (pl' & HP' & HSim).
    exists pl'. split; [assumption|].
    unfold query_simulate in HSim. rewrite HP in HSim. cbn [bind] in HSim. injection HSim as HSim.
    unfold query_proposal_status in HQ. rewrite poll_eq, HP in HQ. cbn [bind] in HQ. rewrite Hp in HQ. cbn [ok_or bind] in HQ.
    unfold fix_poll_status in HQ. rewrite HE in HQ. cbn [is_some] in HQ. rewrite HS in HQ.
    rewrite (proj2 (N.leb_le _ _) HL) in HQ. unfold final_proposal_status in HQ. rewrite total_eq, HTT in HQ. cbn [bind] in HQ.
    rewrite (sim_eq id total pl HP) in HQ. cbn [bind] in HQ. rewrite HSim in HQ. split.
    - destruct (p_status pl'); cb; reflexivity.
    - intros [t E]. rewrite <- HSim in E. exact (final_status_not_in_progress _ _ _ E).
  Qed.

  (** shown as executable early: executing now is accepted, and gives a verdict of the same kind *)
  Lemma early_status_executes e id p pl x sender coins :
    oget (ct_proposals s) id = Some p -> query_poll g id = Ok pl ->
    co_restricted o sender = Ok false -> proper_share (p_quorum pl) ->
    query_proposal_status o s (e_time e) id = Ok (PSCanExecuteEarly, x) ->
    exists s' total early g' pl' ,
      ctl_execute o self s e sender coins (CExecuteProposal id) =
        Ok (s', [mk_sub (WasmExecute (c_governance c) (ToGovernance (GEndPoll id total false early)) []) (ReplySuccess 2)]) /\
      gov_execute g e admin (GEndPoll id total false early) = Ok (g', None) /\
      query_poll g' id = Ok pl' /\
      ((exists y n, p_status pl' = Passed y n) \/ p_status pl' = Rejected IsRejectingOutcome \/ p_status pl' = Rejected IsVetoOutcome).
  Proof.
    intros Hp HP HR HQ0 HQ. destruct HO as (HC & HPO & _).
    unfold query_proposal_status in HQ. rewrite poll_eq, HP in HQ. cbn [bind] in HQ. rewrite Hp in HQ. cbn [ok_or bind] in HQ.
    apply bind_ok in HQ. destruct HQ as (st & HQ & E). injection E as -> _.
    unfold fix_poll_status in HQ. destruct (pi_executed_at p) eqn:HE; [discriminate|]. cbn [is_some] in HQ.
    destruct (p_status pl) as [t| |] eqn:HS; try discriminate.
    destruct (run_inv admin cs HH) as [HInv _]. pose proof HInv as (HI1 & _).
    pose proof HP as HP0. apply query_poll_ok in HP0.
    destruct (HI1 id pl HP0) as (_ & _ & HIP & _). specialize (HIP t HS). subst t.
    destruct (N.leb_spec (p_ends_at pl) (e_time e)) as [HL|HL].
    { unfold final_proposal_status in HQ. cb. match goal with H : match ?x with _ => _ end = Ok _ |- _ => destruct x; discriminate end. }
    destruct (allows_early s (pi_type p) && is_past_earliest p (e_time e)) eqn:EA; [|discriminate].
    apply andb_true_iff in EA. destruct EA as [EA1 EA2].
    apply bind_ok in HQ. destruct HQ as (total & HT & HQ). rewrite (sim_eq id total pl HP) in HQ. cbn [bind] in HQ. injection HQ as HQ.
    rewrite total_eq in HT.
    assert (HV : (exists y n, final_status pl total = Passed y n) \/ final_status pl total = Rejected IsRejectingOutcome \/ final_status pl total = Rejected IsVetoOutcome).
    { destruct (final_status pl total) as [|y n|rr]; try discriminate; [left; eauto|]. destruct rr; try discriminate; auto. }
    assert (HN : total <> 0).
    { intros ->. rewrite zero_total_rejected in HV by apply HQ0. destruct HV as [(y & n & E)|[E|E]]; discriminate. }
    exists (with_executing s (Some id)), total, true.
    exists (set_poll g id (with_status pl (final_status pl total))), (with_status pl (final_status pl total)).
    split.
    { apply (execute_proposal_ok _ _ _ _ _ _ _ _ _ c HC). exists p, pl, total.
      split; [assumption|]. split; [assumption|]. split; [assumption|]. split.
      { intros t0 Ht. unfold is_past_earliest in EA2. rewrite Ht in EA2. apply N.leb_le. assumption. }
      split; [rewrite HPO; assumption|]. split; [rewrite (proj2 (N.leb_gt _ _) HL); assumption|]. split; [assumption|].
      split; [reflexivity|]. unfold allows_early in EA1. destruct (pi_type p); [rewrite EA1|]; reflexivity. }
    split.
    { unfold gov_execute. rewrite (proj2 (N.eqb_eq admin (g_admin g))) by (symmetry; apply admin_constant). cbn [guard bind].
      unfold end_poll. rewrite HP0. cbn [ok_or bind]. unfold validate_can_end_early.
      rewrite (proj2 (N.leb_gt _ _) HL). unfold final_status in HV.
      destruct (quorum_reached pl (p_quorum pl) total) eqn:EQ.
      - cbn [negb] in HV. cbn [guard bind]. destruct (most_voted_over_threshold pl); try reflexivity.
        exfalso. destruct HV as [(y & n & E)|[E|E]]; discriminate.
      - exfalso. cbn [negb] in HV. destruct HV as [(y & n & E)|[E|E]]; discriminate. }
    split; [apply query_poll_ok; unfold set_poll; cbn [g_polls]; apply oget_oset_eq|].
    exact HV.
  Qed.

  (** shown as passed: executing now is accepted and passes *)
  Lemma passed_status_executes e id p pl x sender coins :
    oget (ct_proposals s) id = Some p -> query_poll g id = Ok pl -> p_status pl = InProgress (p_ends_at pl) ->
    (forall t, pi_earliest p = Some t -> t <= p_ends_at pl) ->
    co_restricted o sender = Ok false -> proper_share (p_quorum pl) ->
    query_proposal_status o s (e_time e) id = Ok (PSPassed, x) ->
    exists s' total early g' pl' y n,
      ctl_execute o self s e sender coins (CExecuteProposal id) =
        Ok (s', [mk_sub (WasmExecute (c_governance c) (ToGovernance (GEndPoll id total false early)) []) (ReplySuccess 2)]) /\
      gov_execute g e admin (GEndPoll id total false early) = Ok (g', None) /\
      query_poll g' id = Ok pl' /\ p_status pl' = Passed y n.
  Proof.
    intros Hp HP HS HEE HR HQ0 HQ. destruct HO as (HC & HPO & _).
    unfold query_proposal_status in HQ. rewrite poll_eq, HP in HQ. cbn [bind] in HQ. rewrite Hp in HQ. cbn [ok_or bind] in HQ.
    apply bind_ok in HQ. destruct HQ as (st & HQ & E). injection E as -> _.
    unfold fix_poll_status in HQ. destruct (pi_executed_at p) eqn:HE; [discriminate|]. cbn [is_some] in HQ.
    rewrite HS in HQ.
    destruct (N.leb_spec (p_ends_at pl) (e_time e)) as [HL|HL].
    2:{ destruct (allows_early s (pi_type p) && is_past_earliest p (e_time e)); [|discriminate].
        cb. match goal with H : context[match ?x with InProgress _ => _ | _ => _ end] |- _ => destruct x as [| |[]]; discriminate end. }
    unfold final_proposal_status in HQ. apply bind_ok in HQ. destruct HQ as (total & HT & HQ).
    rewrite total_eq in HT. rewrite (sim_eq id total pl HP) in HQ. cbn [bind] in HQ.
    destruct (final_status pl total) as [|y n|rr] eqn:EF; try discriminate. clear HQ.
    assert (HN : total <> 0). { intros ->. rewrite zero_total_rejected in EF by apply HQ0. discriminate. }
    exists (with_executing s (Some id)), total, (allows_early s (pi_type p)).
    exists (set_poll g id (with_status pl (final_status pl total))), (with_status pl (final_status pl total)), y, n.
    split.
    { apply (execute_proposal_ok _ _ _ _ _ _ _ _ _ c HC). exists p, pl, total.
      split; [assumption|]. split; [assumption|]. split; [assumption|]. split.
      { intros t0 Ht. specialize (HEE t0 Ht). lia. }
      split; [rewrite HPO; assumption|]. split; [rewrite (proj2 (N.leb_le _ _) HL); assumption|]. split; [assumption|].
      split; reflexivity. }
    split.
    { unfold gov_execute. rewrite (proj2 (N.eqb_eq admin (g_admin g))) by (symmetry; apply admin_constant). cbn [guard bind].
      apply query_poll_ok in HP.
      unfold end_poll. rewrite HP. cbn [ok_or bind]. unfold validate_can_end_early, validate_voting_period_ended.
      rewrite (proj2 (N.leb_le _ _) HL), (proj2 (N.ltb_ge _ _) HL). destruct (allows_early s (pi_type p)); reflexivity. }
    split; [apply query_poll_ok; unfold set_poll; cbn [g_polls]; apply oget_oset_eq|].
    exact EF.
  Qed.
End Status.

Lemma executed_status o s now id st x :
  query_proposal_status o s now id = Ok (st, x) ->
  (st = PSExecuted <-> exists p b, oget (ct_proposals s) id = Some p /\ pi_executed_at p = Some b).
Proof.
  unfold query_proposal_status. intros H.
  apply bind_ok in H. destruct H as (pl & HP & H). apply bind_ok in H. destruct H as (p & Hp & H). apply ok_or_ok in Hp.
  apply bind_ok in H. destruct H as (st' & HF & H). injection H as -> _. split.
  - intros ->. exists p. unfold fix_poll_status in HF. destruct (pi_executed_at p) as [b|]; [eauto|]. exfalso. cbn [is_some] in HF.
    destruct (p_status pl); try discriminate.
    destruct (_ <=? _).
    + unfold final_proposal_status in HF. cb. match goal with H : match ?x with _ => _ end = Ok _ |- _ => destruct x; discriminate end.
    + destruct (_ && _); [|discriminate]. cb. match goal with H : context[match ?x with InProgress _ => _ | _ => _ end] |- _ => destruct x as [| |[]]; discriminate end.
  - intros (p' & b & Hp' & Hb). rewrite Hp in Hp'. injection Hp' as <-. unfold fix_poll_status in HF. rewrite Hb in HF.
    cbn in HF. congruence.
Qed.

(** * C59, C60 *)

Lemma weights_forwarded o self s e sender coins changes s' out c :
  co_components o = Ok c ->
  ctl_execute o self s e sender coins (CWeightsChanged changes) = Ok (s', out) <->
  s' = s /\
  ((sender = c_council c /\ out = []) \/
   (sender <> c_council c /\ sender = c_membership c /\
    out = map (fun ch => mk_sub (WasmExecute (c_governance c) (ToGovernance (GUpdateVotes (wc_user ch) (wc_new ch))) []) ReplyNever) changes
          ++ [mk_sub (WasmExecute (c_funds c) (ToFunds (FUpdateUserWeights (map (fun ch => (wc_user ch, wc_new ch)) changes))) []) ReplyNever])).
Proof.
  intros HC. cbn [ctl_execute]. unfold weights_changed. rewrite HC. cbn [bind].
  destruct (N.eqb_spec sender (c_council c)) as [->|NE]; split.
  - intros H. cb. auto.
  - intros (-> & [[_ ->]|[H _]]); [reflexivity|congruence].
  - intros H. cb. match goal with H : (_ =? _) = true |- _ => apply N.eqb_eq in H end. auto 6.
  - intros (-> & [[H _]|(_ & -> & ->)]); [congruence|]. rewrite N.eqb_refl. reflexivity.
Qed.

Lemma initial_deployment o self s e sender coins s' out c :
  co_components o = Ok c ->
  ctl_execute o self s e sender coins CDeployInitial = Ok (s', out) ->
  ct_creation s = e_time e /\ co_creator o = Ok sender /\
  s' = with_treasuries s None /\
  out = map (fun d => mk_sub (WasmExecute (c_outposts c) (ToOutposts (OpDeploy d)) []) ReplyNever) (dflt [] (ct_treasuries s)).
Proof.
  intros HC H. cbn [ctl_execute] in H. unfold deploy_initial in H.
  apply bind_ok in H. destruct H as (u & HT & H). apply bind_ok in H. destruct H as (cr & HCR & H).
  apply bind_ok in H. destruct H as (cr' & HV & H). apply bind_ok in H. destruct H as (u' & HS & H).
  apply guard_ok, N.eqb_eq in HT. apply guard_ok, N.eqb_eq in HS. apply addr_validate_ok in HV. destruct HV as [-> _]. subst cr'.
  split; [assumption|]. split; [assumption|]. destruct (dflt [] (ct_treasuries s)) eqn:E.
  - injection H as <- <-. auto.
  - rewrite HC in H. cbn [bind] in H. injection H as <- <-. auto.
Qed.

(** The lemmas of [Status] with their hypotheses spelled out, for the statements of C40. *)
Lemma status_shown_is_recorded admin cs o c s self e id p pl st x sender coins s' out a m f r g' d :
  history cs ->
  let g := gov_run (gov_init admin) cs in
  asks_governance o c g ->
  oget (ct_proposals s) id = Some p -> pi_executed_at p = None ->
  query_poll g id = Ok pl -> p_status pl = InProgress (p_ends_at pl) -> p_ends_at pl <= e_time e ->
  query_proposal_status o s (e_time e) id = Ok (st, x) ->
  ctl_execute o self s e sender coins (CExecuteProposal id) = Ok (s', out) ->
  In (mk_sub (WasmExecute a (ToGovernance m) f) r) out ->
  gov_execute g e admin m = Ok (g', d) ->
  exists pl', query_poll g' id = Ok pl' /\
    match p_status pl' with Passed _ _ => st = PSPassed | Rejected _ => st = PSRejected | InProgress _ => False end.
Proof.
  intros _ g HO Hp HE HP HS HL HQ H HI HG.
  destruct (status_after_end admin cs o c s self HO e id p pl st x sender coins s' out a m f r g' d Hp HE HP HS HL HQ H HI HG)
    as (pl' & H1 & H2 & H3).
  exists pl'. split; [assumption|]. unfold shown in H2. destruct (p_status pl') eqn:E; auto.
  apply H3. eauto.
Qed.

Lemma can_execute_early_executes admin cs o c s self e id p pl x sender coins :
  history cs ->
  let g := gov_run (gov_init admin) cs in
  asks_governance o c g ->
  oget (ct_proposals s) id = Some p -> query_poll g id = Ok pl ->
  co_restricted o sender = Ok false -> proper_share (p_quorum pl) ->
  query_proposal_status o s (e_time e) id = Ok (PSCanExecuteEarly, x) ->
  exists s' total early g' pl',
    ctl_execute o self s e sender coins (CExecuteProposal id) =
      Ok (s', [mk_sub (WasmExecute (c_governance c) (ToGovernance (GEndPoll id total false early)) []) (ReplySuccess 2)]) /\
    gov_execute g e admin (GEndPoll id total false early) = Ok (g', None) /\
    query_poll g' id = Ok pl' /\
    ((exists y n, p_status pl' = Passed y n) \/ p_status pl' = Rejected IsRejectingOutcome \/ p_status pl' = Rejected IsVetoOutcome).
Proof. intros HH g HO. exact (early_status_executes admin cs o c s self HH HO e id p pl x sender coins). Qed.

Lemma shown_passed_executes admin cs o c s self e id p pl x sender coins :
  history cs ->
  let g := gov_run (gov_init admin) cs in
  asks_governance o c g ->
  oget (ct_proposals s) id = Some p -> query_poll g id = Ok pl -> p_status pl = InProgress (p_ends_at pl) ->
  (forall t, pi_earliest p = Some t -> t <= p_ends_at pl) ->
  co_restricted o sender = Ok false -> proper_share (p_quorum pl) ->
  query_proposal_status o s (e_time e) id = Ok (PSPassed, x) ->
  exists s' total early g' pl' y n,
    ctl_execute o self s e sender coins (CExecuteProposal id) =
      Ok (s', [mk_sub (WasmExecute (c_governance c) (ToGovernance (GEndPoll id total false early)) []) (ReplySuccess 2)]) /\
    gov_execute g e admin (GEndPoll id total false early) = Ok (g', None) /\
    query_poll g' id = Ok pl' /\ p_status pl' = Passed y n.
Proof. intros _ g HO. exact (passed_status_executes admin cs o c s self HO e id p pl x sender coins). Qed.

(** resolving a council proposal *)
Lemma council_effects_stored o self s e coins id c t cur s' out p :
  co_components o = Ok c -> co_dao_type o = Ok t -> co_dao_version o = Ok cur ->
  oget (ct_proposals s) id = Some p -> pi_type p = Council ->
  Forall (fun a => council_power (action_type_of a)) (pi_actions p) ->
  ctl_execute o self s e self coins (CExecuteActions id) = Ok (s', out) ->
  s' = s /\ Forall (council_message c s) out.
Proof.
  intros HC HT HV Hp HTy HF H. apply (actions_are_the_stored_ones _ _ _ _ _ _ _ _ _ _ _ HC HT HV) in H.
  destruct H as (p' & Hp' & HE). rewrite Hp in Hp'. injection Hp' as <-.
  eapply council_effects; eassumption.
Qed.

(** * C39 *)

(** past the end, with some weight at the end: anyone unrestricted can resolve the proposal, up to and including the
    handler that sends the deposit *)
Lemma resolvable_after_end admin cs o c s self e id p pl sender coins total :
  let g := gov_run (gov_init admin) cs in
  asks_governance o c g ->
  oget (ct_proposals s) id = Some p -> pi_executed_at p = None ->
  (forall t, pi_earliest p = Some t -> t <= p_ends_at pl) ->
  query_poll g id = Ok pl -> p_ends_at pl <= e_time e ->
  co_restricted o sender = Ok false ->
  total_for o c (pi_type p) (AtTime (p_ends_at pl)) = Ok total -> total <> 0 ->
  exists s' early g',
    ctl_execute o self s e sender coins (CExecuteProposal id) =
      Ok (s', [mk_sub (WasmExecute (c_governance c) (ToGovernance (GEndPoll id total false early)) []) (ReplySuccess 2)]) /\
    gov_execute g e admin (GEndPoll id total false early) = Ok (g', None) /\
    forall o', asks_governance o' c g' ->
      exists s'' out, ctl_reply o' self s' e 2 (ROk None) = Ok (s'', out).
Proof.
  intros g (HC & HP & HS) Hp HE HEE HPL HL HR HT HN.
  exists (with_executing s (Some id)), (match pi_type p with General => gc_allow_early (ct_config s) | Council => true end).
  exists (set_poll g id (with_status pl (final_status pl total))). split; [|split].
  - apply (execute_proposal_ok _ _ _ _ _ _ _ _ _ c HC). exists p, pl, total.
    split; [assumption|]. split; [assumption|]. split; [assumption|]. split; [intros t Ht; specialize (HEE t Ht); lia|].
    split; [rewrite HP; assumption|]. split; [rewrite (proj2 (N.leb_le _ _) HL); assumption|]. auto.
  - unfold gov_execute. rewrite (proj2 (N.eqb_eq admin (g_admin g))) by (symmetry; apply admin_constant). cbn [guard bind].
    apply query_poll_ok in HPL. unfold end_poll. rewrite HPL. cbn [ok_or bind].
    unfold validate_can_end_early, validate_voting_period_ended.
    rewrite (proj2 (N.leb_le _ _) HL), (proj2 (N.ltb_ge _ _) HL). destruct (pi_type p), (gc_allow_early (ct_config s)); reflexivity.
  - intros o' (HC' & HP' & _). unfold ctl_reply. cbn [N.eqb Pos.eqb ct_executing with_executing ok_or bind].
    unfold resolve_ended, ctl_poll. rewrite HC'. cbn [bind]. rewrite HP'.
    unfold query_poll, set_poll. cbn [g_polls]. rewrite oget_oset_eq. cbn [ok_or bind].
    unfold with_status. cbn [p_status]. change (oget (ct_proposals (with_executing (with_executing s (Some id)) None)) id) with (oget (ct_proposals s) id).
    rewrite Hp. cbn [ok_or bind].
    destruct (final_status pl total) as [t0|o0 n0|r0] eqn:EF; [exfalso; exact (final_status_not_in_progress _ _ _ EF)|eauto|].
    destruct (pi_type p); [|cbn [bind]; eauto].
    destruct r0; try (cbn [bind]; eauto; fail); destruct (pi_deposit p); rewrite ?HC'; cbn [bind]; eauto.
Qed.

(** ... but if nobody had weight at the end, nobody ever can *)
Lemma unresolvable_without_weight o c s self e id p pl sender coins :
  co_components o = Ok c -> oget (ct_proposals s) id = Some p ->
  co_poll o (c_governance c) id = Ok pl -> p_ends_at pl <= e_time e ->
  total_for o c (pi_type p) (AtTime (p_ends_at pl)) = Ok 0 ->
  is_ok (ctl_execute o self s e sender coins (CExecuteProposal id)) = false.
Proof.
  intros HC Hp HPL HL HT. destruct (ctl_execute _ _ _ _ _ _ _) as [[s' out]|] eqn:E; [exfalso|reflexivity].
  apply (execute_proposal_ok _ _ _ _ _ _ _ _ _ c HC) in E.
  destruct E as (p' & pl' & total & _ & Hp' & _ & _ & HPL' & HT' & HN & _).
  rewrite Hp in Hp'. injection Hp' as <-. rewrite HPL in HPL'. injection HPL' as <-.
  rewrite (proj2 (N.leb_le _ _) HL) in HT'. congruence.
Qed.

(** * C61 *)

Lemma map_res_unit {A} (f : A -> res unit) l : (exists x, map_res f l = Ok x) <-> forall a, In a l -> f a = Ok tt.
Proof.
  induction l as [|a t IH]; cbn [map_res].
  - split; [contradiction|eauto].
  - split.
    + intros [x H]. apply bind_ok in H. destruct H as ([] & H1 & H). apply bind_ok in H. destruct H as (y & H2 & H).
      intros b [<-|HI]; [assumption|]. apply IH; eauto.
    + intros H. rewrite (H a) by (left; reflexivity). cbn [bind].
      destruct (proj2 IH) as [x ->]; [intros b HI; apply H; right; assumption|]. cbn. eauto.
Qed.

Lemma check_asset_ok a b : check_asset a = Ok b <-> b = a /\ valid_asset a.
Proof.
  unfold check_asset, valid_asset, addr_validate. destruct a as [d|t|t id]; cbn.
  - split; [intros H; injection H as <-; auto|intros [-> _]; reflexivity].
  - destruct (N.eqb_spec t 0); cbn; split; try discriminate; try (intros [_ H]; congruence).
    + intros H; injection H as <-; auto.
    + intros [-> _]; reflexivity.
  - destruct (N.eqb_spec t 0); cbn; split; try discriminate; try (intros [_ H]; congruence).
    + intros H; injection H as <-; auto.
    + intros [-> _]; reflexivity.
Qed.

Lemma asset_eqb_iff a b : asset_eqb a b = true <-> a = b.
Proof.
  destruct a, b; cbn; try (split; congruence); rewrite ?andb_true_iff, ?N.eqb_eq; split.
  all: try (intros [-> ->]; reflexivity). all: try (intros ->; reflexivity). all: intros H; injection H; auto.
Qed.

Lemma asset_in_iff a l : asset_in a l = true <-> In a l.
Proof.
  unfold asset_in. rewrite existsb_exists. split.
  - intros (x & H1 & H2). apply asset_eqb_iff in H2. subst. assumption.
  - intros H. exists a. split; [assumption|]. apply asset_eqb_iff. reflexivity.
Qed.

Lemma nodup_assets_iff l : nodup_assets l = true <-> NoDup l.
Proof.
  induction l as [|a t IH]; cbn.
  - split; [constructor|reflexivity].
  - rewrite andb_true_iff, negb_true_iff, IH. split.
    + intros [H1 H2]. constructor; [|assumption]. intros H. apply asset_in_iff in H. congruence.
    + intros H. inversion H; subst. split; [|assumption]. destruct (asset_in a t) eqn:E; [|reflexivity].
      apply asset_in_iff in E. contradiction.
Qed.

Lemma check_list_ok l : (exists x, map_res check_asset l = Ok x) <-> forall a, In a l -> valid_asset a.
Proof.
  induction l as [|a t IH]; cbn [map_res].
  - split; [contradiction|eauto].
  - split.
    + intros [x H]. apply bind_ok in H. destruct H as (b & H1 & H). apply bind_ok in H. destruct H as (y & H2 & H).
      apply check_asset_ok in H1. intros b' [<-|HI]; [apply H1|]. apply IH; eauto.
    + intros H. rewrite (proj2 (check_asset_ok a a)) by (split; [reflexivity|apply H; left; reflexivity]). cbn [bind].
      destruct (proj2 IH) as [x ->]; [intros b HI; apply H; right; assumption|]. cbn. eauto.
Qed.

Lemma validate_asset_list_ok l : validate_asset_list l = Ok tt <-> (forall a, In a l -> valid_asset a) /\ NoDup l.
Proof.
  unfold validate_asset_list. rewrite <- check_list_ok, <- nodup_assets_iff. split.
  - intros H. apply bind_ok in H. destruct H as (x & H1 & H). apply guard_ok in H. eauto.
  - intros [[x ->] ->]. reflexivity.
Qed.

Lemma disjoint_bool {A} (f : A -> list A -> bool) (HF : forall a l, f a l = true <-> In a l) add remove :
  negb (existsb (fun a => f a remove) add) = true <-> forall x, In x add -> ~ In x remove.
Proof.
  rewrite negb_true_iff. split.
  - intros H x H1 H2. assert (existsb (fun a => f a remove) add = true); [|congruence].
    apply existsb_exists. exists x. split; [assumption|]. apply HF. assumption.
  - intros H. destruct (existsb _ add) eqn:E; [|reflexivity]. apply existsb_exists in E. destruct E as (x & H1 & H2).
    apply HF in H2. destruct (H x H1 H2).
Qed.

Lemma one_of {A B} (f : A -> res B) (P : A -> Prop) : (forall a, (exists b, f a = Ok b) <-> P a) ->
  forall l, (exists x, map_res f l = Ok x) <-> forall a, In a l -> P a.
Proof.
  intros HF l. induction l as [|a t IH]; cbn [map_res].
  - split; [contradiction|eauto].
  - split.
    + intros [x H]. apply bind_ok in H. destruct H as (b & H1 & H). apply bind_ok in H. destruct H as (y & H2 & H).
      intros b' [<-|HI]; [apply HF; eauto|]. apply IH; eauto.
    + intros H. destruct (proj2 (HF a)) as [b ->]; [apply H; left; reflexivity|]. cbn [bind].
      destruct (proj2 IH) as [x ->]; [intros b' HI; apply H; right; assumption|]. cbn. eauto.
Qed.

Lemma fundable a (n : N) : (exists b, validate_funding_one (a, n) = Ok b) <-> valid_asset a /\ forall c id, a <> Cw1155 c id.
Proof.
  unfold validate_funding_one. cbn [fst]. split.
  - intros [b H]. apply bind_ok in H. destruct H as (x & H1 & H). apply check_asset_ok in H1. destruct H1 as [-> H1].
    split; [assumption|]. intros c id ->. discriminate.
  - intros [H1 H2]. rewrite (proj2 (check_asset_ok a a)) by auto. cbn [bind]. destruct a as [d|t|t id]; eauto. destruct (H2 t id); reflexivity.
Qed.

Lemma distributable a (n : N) : (exists b, validate_distribute_one (a, n) = Ok b) <-> valid_asset a /\ forall c id, a <> Cw1155 c id.
Proof.
  unfold validate_distribute_one, valid_asset, addr_validate. cbn [fst]. destruct a as [d|t|t id]; cbn.
  - split; [|eauto]. intros _. split; [exact I|discriminate].
  - destruct (N.eqb_spec t 0); cbn; split.
    + intros [b H]; discriminate. + intros [H _]; congruence. + intros _. split; [assumption|discriminate]. + eauto.
  - split; [intros [b H]; discriminate|]. intros [_ H]. destruct (H t id). reflexivity.
Qed.

Lemma existsb_eqb_In (a : N) l : existsb (N.eqb a) l = true <-> In a l.
Proof. apply existsb_In. Qed.

Lemma parse_ok l : (x <- parse_msgs l ;; Ok tt) = Ok tt <-> exists ms, l = map Some ms.
Proof.
  split.
  - intros H. apply bind_ok in H. destruct H as (ms & H & _). apply map_some_parse in H. eauto.
  - intros [ms ->]. rewrite parse_map_some. reflexivity.
Qed.

Lemma then_unit {A} (r : res A) : (_ <- r ;; Ok tt) = Ok tt <-> exists x, r = Ok x.
Proof. destruct r; cbn; split; eauto; [intros H; discriminate|intros [x H]; discriminate]. Qed.

Lemma action_valid o s t cur a :
  co_dao_version o = Ok cur ->
  validate_action o s t a = Ok tt <-> well_formed t cur (ct_config s) a.
Proof.
  intros HV. destruct a as [u|u|council|target add remove|target add remove|target to assets|v msgs|msgs|msgs target|msgs|edits|funds|w|d];
    cbn [validate_action].
  - split; [constructor|reflexivity].
  - rewrite validate_gov_config_ok. split.
    + intros H. eapply wf_config; [..|exact H]; reflexivity.
    + intros H. inversion H as [| | | | | | | | | | | | |u' g' E1 E2 E3 E4 E5 HS| | |]; subst.
      destruct HS as (A1 & A2 & A3 & A4 & A5). rewrite ?E1, ?E2, ?E3, ?E4, ?E5 in *.
      unfold sane_config, apply_config. cbn [gc_vote_duration gc_quorum gc_threshold gc_veto_threshold gc_minimum_deposit]. auto 6.
  - rewrite then_unit. destruct council as [spec|].
    + split.
      * intros [x H]. apply validate_council_some in H.
        destruct H as (H1 & H2 & H3 & H4 & H5 & _). constructor; try assumption.
        intros l E. rewrite E in H3. exact H3.
      * intros H. inversion H; subst. eexists. apply validate_council_some.
        do 2 (split; [assumption|]). split; [|auto]. destruct (cs_allowed spec) eqn:E; cbn; [auto|constructor].
    + split; [constructor|]. intros _. exists None. reflexivity.
  - destruct target as [x|]; cbn [validate_assets].
    + split; [constructor|reflexivity].
    + split.
      * intros H. apply bind_ok in H. destruct H as ([] & H1 & H). apply bind_ok in H. destruct H as ([] & H2 & H).
        apply guard_ok in H. pose proof (proj1 (disjoint_bool asset_in asset_in_iff add remove) H) as HD.
        apply validate_asset_list_ok in H1, H2. destruct H1 as [H1 N1], H2 as [H2 N2]. constructor.
        -- intros a Ha. apply in_app_iff in Ha. destruct Ha; auto.
        -- split; [assumption|]. auto.
      * intros H. inversion H as [add' remove' HA (N1 & N2 & HD)| | | | | | | | | | | | | | | |]; subst.
        rewrite (proj2 (validate_asset_list_ok add)) by (split; [|assumption]; intros a Ha; apply HA, in_app_iff; auto).
        cbn [bind].
        rewrite (proj2 (validate_asset_list_ok remove)) by (split; [|assumption]; intros a Ha; apply HA, in_app_iff; auto).
        cbn [bind]. rewrite (proj2 (disjoint_bool asset_in asset_in_iff add remove)) by assumption. reflexivity.
  - unfold validate_nfts. split.
    + intros H. apply bind_ok in H. destruct H as (x & H1 & H). apply bind_ok in H. destruct H as ([] & H2 & H).
      apply bind_ok in H. destruct H as (y & H3 & H). apply bind_ok in H. destruct H as ([] & H4 & H).
      apply guard_ok in H, H2, H4. apply nodupb_NoDup in H2, H4. apply map_res_addr in H1, H3.
      pose proof (proj1 (disjoint_bool (fun a l => existsb (N.eqb a) l) existsb_eqb_In add remove) H) as HD. constructor.
      * intros a Ha ->. apply in_app_iff in Ha. destruct H1, H3. tauto.
      * split; [assumption|]. auto.
    + intros H. inversion H as [| |tg add' remove' HA (N1 & N2 & HD)| | | | | | | | | | | | | |]; subst.
      rewrite (proj2 (map_res_addr add add)) by (split; [reflexivity|]; intros HI; apply (HA 0); [apply in_app_iff; auto|reflexivity]).
      cbn [bind]. rewrite (proj2 (nodupb_NoDup add)) by assumption. cbn [guard bind].
      rewrite (proj2 (map_res_addr remove remove)) by (split; [reflexivity|]; intros HI; apply (HA 0); [apply in_app_iff; auto|reflexivity]).
      cbn [bind]. rewrite (proj2 (nodupb_NoDup remove)) by assumption. cbn [guard bind].
      rewrite (proj2 (disjoint_bool (fun a l => existsb (N.eqb a) l) existsb_eqb_In add remove)) by assumption. reflexivity.
  - destruct target as [x|].
    + split; [constructor|reflexivity].
    + split.
      * intros H. apply bind_ok in H. destruct H as (to' & H1 & H). apply then_unit in H.
        apply addr_validate_ok in H1. destruct H1 as [E1 H1]. rewrite <- E1 in H1. constructor; [assumption|].
        intros a n HI. apply (fundable a n). revert HI.
        apply (proj1 (one_of validate_funding_one (fun an => exists b, validate_funding_one an = Ok b) (fun _ => iff_refl _) assets) H).
      * intros H. inversion H; subst. unfold addr_validate. rewrite (proj2 (N.eqb_neq to 0)) by assumption. cbn [bind].
        apply then_unit. apply (one_of validate_funding_one (fun an => exists b, validate_funding_one an = Ok b) (fun _ => iff_refl _)).
        intros [a n] HI. apply fundable. eauto.
  - unfold validate_upgrade. rewrite HV. cbn [bind]. split.
    + intros H. apply guard_ok, negb_true_iff, N.leb_gt in H. constructor. assumption.
    + intros H. inversion H; subst. rewrite (proj2 (N.leb_gt _ _)) by assumption. reflexivity.
  - rewrite parse_ok. split; [intros [ms ->]; constructor|intros H; inversion H; eauto].
  - rewrite parse_ok. split; [intros [ms ->]; constructor|intros H; inversion H; eauto].
  - rewrite parse_ok. split; [intros [ms ->]; constructor|intros H; inversion H; eauto].
  - rewrite validate_multisig_ok. split; [intros (H1 & H2 & H3); constructor; assumption|intros H; inversion H; auto].
  - rewrite then_unit. rewrite (one_of validate_distribute_one (fun an => exists b, validate_distribute_one an = Ok b) (fun _ => iff_refl _)). split.
    + intros H. constructor. intros a n HI. apply (distributable a n), H, HI.
    + intros H. inversion H; subst. intros [a n] HI. apply distributable. eauto.
  - split; [constructor|reflexivity].
  - split; [constructor|reflexivity].
Qed.

Lemma actions_valid o s t cur l :
  co_dao_version o = Ok cur ->
  validate_actions o s t l = Ok tt <-> (length l <= 10)%nat /\ Forall (well_formed t cur (ct_config s)) l.
Proof.
  intros HV. unfold validate_actions. rewrite Forall_forall. split.
  - intros H. apply bind_ok in H. destruct H as ([] & H1 & H). apply guard_ok, Nat.leb_le in H1. split; [exact H1|].
    apply then_unit in H. intros a Ha. apply (action_valid o s t cur a HV).
    exact (proj1 (map_res_unit _ _) H a Ha).
  - intros [H1 H2]. rewrite (proj2 (Nat.leb_le _ _)) by exact H1. cbn [guard bind]. apply then_unit. apply map_res_unit.
    intros a Ha. apply (action_valid o s t cur a HV). auto.
Qed.

(** what a call puts up for creation is well-formed *)
Lemma proposed_actions_valid o self s e sender coins m s' out p t cur :
  co_dao_type o = Ok t -> co_dao_version o = Ok cur ->
  ctl_execute o self s e sender coins m = Ok (s', out) -> ct_creating s' = Some p -> ct_creating s <> Some p ->
  pi_executed_at p = None /\ pi_earliest p = None /\
  (length (pi_actions p) <= 10)%nat /\ Forall (well_formed t cur (ct_config s)) (pi_actions p).
Proof.
  intros HT HV H Hp HN.
  assert (HC : forall actions d proposer s1 o1, create_proposal o s e actions d proposer = Ok (s1, o1) -> ct_creating s1 = Some p ->
     pi_executed_at p = None /\ pi_earliest p = None /\
     (length (pi_actions p) <= 10)%nat /\ Forall (well_formed t cur (ct_config s)) (pi_actions p)).
  { intros actions d proposer s1 o1 HH HX. apply create_ok in HH. destruct HH as (c & w & t' & en & _ & _ & _ & _ & HT' & HA & _ & -> & _).
    cbn in HX. injection HX as <-. cbn. rewrite HT in HT'. injection HT' as <-.
    split; [reflexivity|]. split; [reflexivity|]. apply (actions_valid o s t cur actions HV). destruct (validate_actions o s t actions) as [[]|]; [reflexivity|discriminate]. }
  destruct m; cbn [ctl_execute] in H.
  - unfold create_proposal_coins in H. cb. eapply HC; eassumption.
  - unfold create_proposal_nft in H. cb. eapply HC; eassumption.
  - unfold create_council_proposal in H. cb.
    match goal with H : new_poll_msg _ _ _ _ _ _ _ _ = Ok _ |- _ => apply new_poll_ok in H end.
    assert (HVA : validate_actions o s t actions = Ok tt) by
      (match goal with H : co_dao_type o = Ok ?t', H2 : validate_actions _ _ ?t' _ = Ok ?u |- _ => rewrite HT in H; injection H as ->; destruct u; exact H2 end).
    assert (EP : p = mk_info Council None None None actions).
    { destruct H as (c' & en & _ & _ & -> & _) || destruct H as (en & c' & _ & _ & -> & _). cbn in Hp. congruence. }
    subst p. cbn. split; [reflexivity|]. split; [reflexivity|]. apply (actions_valid o s t cur _ HV). assumption.
  - unfold ctl_cast_vote in H. cb. destruct x4. cb. contradiction.
  - unfold ctl_cast_council_vote in H. cb. contradiction.
  - unfold execute_proposal, end_proposal in H. cb. contradiction.
  - destruct hook as [[actions owner]|]; [|discriminate]. unfold create_proposal_cw20 in H. cb. eapply HC; eassumption.
  - unfold weights_changed in H. cb. destruct (sender =? c_council x); cb; contradiction.
  - unfold execute_actions in H. cb. apply run_actions_frame in H. destruct H as (_ & _ & _ & _ & E & _). rewrite E in Hp. contradiction.
  - unfold deploy_initial in H. cb. destruct (dflt [] (ct_treasuries s)); cb; contradiction.
Qed.

(** * C52 *)

(** a vote that changes whether the proposal could be executed now starts the delay; no other does *)
Lemma vote_delay_exact o self s e r s' out id old p c total st ends_at t :
  ct_voting s = Some (id, old) -> oget (ct_proposals s) id = Some p -> pi_type p = General ->
  co_components o = Ok c -> co_dao_type o = Ok t ->
  co_total o (c_membership c) Never = Ok total -> co_simulate o (c_governance c) id total = Ok (st, ends_at) ->
  ctl_reply o self s e 4 r = Ok (s', out) <->
  out = [] /\
  ((s' = with_voting s None /\ (gc_allow_early (ct_config s) = false \/ t = DaoMultisig \/ exec_status_of st = old)) \/
   (gc_allow_early (ct_config s) = true /\ t <> DaoMultisig /\ exec_status_of st <> old /\
    exists later, ts_plus_seconds (e_time e) (gc_vote_duration (ct_config s) / 10) = Ok later /\
      s' = with_proposals (with_voting s None) (oset (ct_proposals s) id
             (mk_info General (pi_executed_at p) (Some (N.min later ends_at)) (pi_deposit p) (pi_actions p))))).
Proof.
  intros HV Hp HG HC HT HTT HS. unfold ctl_reply. cbn [N.eqb Pos.eqb]. unfold reply_cast_vote, total_available, simulate.
  rewrite HV, HT, HC. cbn [ok_or bind ct_config with_voting ct_proposals].
  destruct (gc_allow_early (ct_config s)); cbn [negb].
  2:{ split; [intros H; injection H as <- <-; auto|]. intros (-> & [(-> & _)|(H & _)]); [reflexivity|discriminate]. }
  destruct (dao_type_eqb t DaoMultisig) eqn:ET.
  { apply dao_type_eqb_eq in ET. split; [intros H; injection H as <- <-; auto 6|].
    intros (-> & [(-> & _)|(_ & H & _)]); [reflexivity|contradiction]. }
  assert (HM : t <> DaoMultisig) by (intros E; apply dao_type_eqb_eq in E; congruence).
  rewrite Hp. cbn [ok_or bind]. rewrite HG. cbn [proposal_type_eqb bind]. rewrite HTT. cbn [bind]. rewrite HS. cbn [bind].
  destruct (exec_status_eqb (exec_status_of st) old) eqn:EE.
  { apply exec_status_eqb_eq in EE. split; [intros H; injection H as <- <-; auto 6|].
    intros (-> & [(-> & _)|(_ & _ & H & _)]); [reflexivity|contradiction]. }
  assert (HE : exec_status_of st <> old) by (intros E; apply exec_status_eqb_eq in E; congruence).
  split.
  - intros H. apply bind_ok in H. destruct H as (later & HL & H). injection H as <- <-. split; [reflexivity|]. right. eauto 8.
  - intros (-> & [(-> & [H|[H|H]])|(_ & _ & _ & later & HL & ->)]); try discriminate; try contradiction. rewrite HL. reflexivity.
Qed.

(** * C62 *)

Definition view_of (o : ctl_oracle) (c : components) (s : ctl) (now : N) (pl : poll) (v : proposal_view) : Prop :=
  exists p, oget (ct_proposals s) (p_id pl) = Some p /\
    vw_id v = p_id pl /\ vw_type v = pi_type p /\ vw_expires v = p_ends_at pl /\ vw_actions v = pi_actions p /\
    vw_results v = p_results pl /\
    fix_poll_status o s (p_id pl) (p_status pl) now p = Ok (vw_status v) /\
    total_for o c (pi_type p)
      (match pi_executed_at p with
       | Some b => AtTime (N.min (p_ends_at pl) (e_time b))
       | None => if p_ends_at pl <=? now then AtTime (p_ends_at pl) else Never
       end) = Ok (vw_total v).

Lemma to_view_ok o c s now pl v : co_components o = Ok c -> to_view o s now pl = Ok v -> view_of o c s now pl v.
Proof.
  intros HC H. unfold to_view in H. apply bind_ok in H. destruct H as (p & Hp & H). apply ok_or_ok in Hp.
  apply bind_ok in H. destruct H as (st & Hs & H). apply bind_ok in H. destruct H as (total & Ht & H). injection H as <-.
  exists p. cbn. repeat (split; [try reflexivity; assumption|]).
  unfold total_available in Ht. rewrite HC in Ht. cbn [bind] in Ht. unfold total_for. destruct (pi_type p); exact Ht.
Qed.

Lemma to_views_ok o c s now l : co_components o = Ok c ->
  (forall pl, In pl l -> to_view o s now pl = Err ENoSuchProposal -> oget (ct_proposals s) (p_id pl) = None) ->
  forall vs, to_views o s now l = Ok vs ->
  Forall2 (view_of o c s now) (filter (fun pl => is_some (oget (ct_proposals s) (p_id pl))) l) vs.
Proof.
  intros HC. induction l as [|pl l IH]; intros HN vs H; cbn [to_views filter] in *.
  - injection H as <-. constructor.
  - destruct (to_view o s now pl) as [v|x] eqn:E.
    + apply bind_ok in H. destruct H as (vs' & H1 & H). injection H as <-.
      apply to_view_ok with (c := c) in E; [|assumption].
      pose proof E as (p & Hp & _). rewrite Hp. cbn [is_some]. constructor; [assumption|]. apply IH; [|assumption]. intros pl' Hpl. apply HN. right. assumption.
    + assert (E' : x = ENoSuchProposal) by (destruct x; congruence || reflexivity). subst x.
      rewrite (HN pl); [|left; reflexivity|assumption]. cbn [is_some]. apply IH; [|assumption]. intros pl' Hpl. apply HN. right. assumption.
Qed.

(** the listing shows, in order, each poll of the page that belongs to a proposal (unless another contract
    answers a query with this contract's own error) *)
Lemma listing_exact o c s now filt start_after limit vs pls :
  co_components o = Ok c ->
  co_polls o (c_governance c) filt start_after (N.min (dflt 50 limit) 100) = Ok pls ->
  (forall pl, In pl pls -> to_view o s now pl = Err ENoSuchProposal -> oget (ct_proposals s) (p_id pl) = None) ->
  query_proposals o s now filt start_after limit = Ok vs ->
  Forall2 (view_of o c s now) (filter (fun pl => is_some (oget (ct_proposals s) (p_id pl))) pls) vs.
Proof.
  intros HC HP HN H. unfold query_proposals in H. rewrite HC in H. cbn [bind] in H. rewrite HP in H. cbn [bind] in H.
  eapply to_views_ok; eassumption.
Qed.

(** * C60, over histories: once deployed, never again *)
Lemma treasuries_step self s c s' out :
  ctl_handle self s c = Ok (s', out) ->
  (ct_treasuries s' = ct_treasuries s \/
   (ct_treasuries s' = None /\ exists sender coins, cc_event c = CallCtl sender coins CDeployInitial)) /\
  ct_creation s' = ct_creation s.
Proof.
  unfold ctl_handle. destruct (cc_event c) as [sender coins m|id r]; intros H.
  - split.
    2:{ apply call_frame in H. apply H. }
    destruct m; cbn [ctl_execute] in H.
    + unfold create_proposal_coins in H. cb. apply create_frame in H. destruct H as (p & -> & _). auto.
    + unfold create_proposal_nft in H. cb.
      match goal with H : create_proposal _ _ _ _ _ _ = Ok _ |- _ => apply create_frame in H; destruct H as (p & -> & _) end. auto.
    + apply council_create_ok in H. destruct H as (cc & c' & w & t & en & _ & _ & _ & _ & _ & _ & _ & _ & _ & -> & _). auto.
    + unfold ctl_cast_vote in H. cb. destruct x4. cb. auto.
    + unfold ctl_cast_council_vote in H. cb. auto.
    + unfold execute_proposal, end_proposal in H. cb. auto.
    + destruct hook as [[actions owner]|]; [|discriminate]. unfold create_proposal_cw20 in H. cb.
      apply create_frame in H. destruct H as (p & -> & _). auto.
    + unfold weights_changed in H. cb. destruct (sender =? c_council x); cb; auto.
    + unfold execute_actions in H. cb. clear Hb0. left. revert H. generalize (@nil sub_msg). revert s s' out.
      induction (pi_actions x0) as [|a l IH]; intros s s' out acc H; cbn [fold_res] in H; [cb; auto|].
      unfold run_action_acc in H at 1. cbn [fst snd] in H. apply bind_ok in H. destruct H as ([s1 m1] & HA & H).
      apply bind_ok in HA. destruct HA as ([s2 m2] & HA & E). injection E as <- <-.
      rewrite (IH _ _ _ _ H). clear -HA. destruct a; cbn [run_action] in HA; unfold act_gov_config, act_council, to_treasury in HA; cb; auto.
    + unfold deploy_initial in H. cb. destruct (dflt [] (ct_treasuries s)); cb; right; split; eauto.
  - unfold ctl_reply in H. destruct (id =? 1); [cb; auto|]. destruct (id =? 2).
    { cb. apply resolve_ok in H. destruct H as (pl & p0 & _ & _ & _ & ->). auto. }
    destruct (id =? 3); [cb; auto|]. destruct (id =? 4); [|discriminate].
    apply reply_vote_ok in H. destruct H as (pid & k & _ & _ & [->|(p0 & t & ea & _ & _ & _ & _ & ->)]); auto.
Qed.
