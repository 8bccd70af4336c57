(** Whatever happens, the proposals on record are in order. *)
From Verif Require Import Base OMap OMapLemmas Assets PollModel PollSpec PollProofs PollFacts FundsModel FundsSpec MemberModel MemberSpec Msgs
  ControllerModel ControllerSpec ControllerProofs ControllerFacts TreasuryModel TreasurySpec TreasuryFacts EnterpriseModel OutpostsModel WorldModel WorldSpec WorldProofs WorldRun WorldFacts
  LiftProofs LiftFacts LiveSpec LiveProofs LiveResults EndSpec RipeSpec RipeFacts PurseSpec OrderSpec AbroadSpec AbroadProofs RuleProofs OrderProofs DoneSpec DoneProofs SettingSpec AccessProofs
  FacadeSpec EnactProofs EnactFacts ShelfSpec ShelfFacts MadeSpec.

Definition ctl_made (t : dao_type) (s : ctl) : Prop :=
  (forall p, ct_creating s = Some p -> well_made t p) /\ (forall id p, oget (ct_proposals s) id = Some p -> well_made t p).

Lemma valid_made o s t p : is_ok (co_dao_version o) = true -> validate_actions o s t (pi_actions p) = Ok tt -> well_made t p.
Proof.
  intros HV H. destruct (co_dao_version o) as [cur|] eqn:E; [|discriminate]. apply (actions_valid o s t cur _ E) in H. destruct H as (H1 & H).
  split; [exact H1|]. exists cur, (ct_config s). exact H.
Qed.

Lemma call_creates o self s e sender coins m s' out t :
  co_dao_type o = Ok t -> is_ok (co_dao_version o) = true -> ctl_execute o self s e sender coins m = Ok (s', out) ->
  ct_creating s' = ct_creating s \/ exists p, ct_creating s' = Some p /\ well_made t p.
Proof.
  intros HT HV H.
  assert (HC : forall actions d proposer s1 o1, create_proposal o s e actions d proposer = Ok (s1, o1) ->
     exists p, ct_creating s1 = Some p /\ well_made t p).
  { intros actions d proposer s1 o1 HH. apply create_ok in HH. destruct HH as (c & w & t' & en & _ & _ & _ & _ & HT' & HA & _ & -> & _).
    rewrite HT in HT'. injection HT' as <-. eexists. split; [reflexivity|]. apply (valid_made o s); assumption. }
  destruct m; cbn [ctl_execute] in H.
  - right. unfold create_proposal_coins in H. cb. eapply HC; eassumption.
  - right. unfold create_proposal_nft in H. cb. eapply HC; eassumption.
  - right. unfold create_council_proposal in H. cb.
    match goal with H : new_poll_msg _ _ _ _ _ _ _ _ = Ok _ |- _ => apply new_poll_ok in H end.
    assert (HVA : validate_actions o s t actions = Ok tt) by
      (match goal with H : co_dao_type o = Ok ?t', H2 : validate_actions _ _ ?t' _ = Ok ?u |- _ => rewrite HT in H; injection H as ->; destruct u; exact H2 end).
    exists (mk_info Council None None None actions). split; [|exact (valid_made o s t (mk_info Council None None None actions) HV HVA)].
    destruct H as (c' & en & _ & _ & -> & _) || destruct H as (en & c' & _ & _ & -> & _). reflexivity.
  - left. unfold ctl_cast_vote in H. cb. destruct x4. cb. reflexivity.
  - left. unfold ctl_cast_council_vote in H. cb. reflexivity.
  - left. unfold execute_proposal, end_proposal in H. cb. reflexivity.
  - right. destruct hook as [[actions owner]|]; [|discriminate]. unfold create_proposal_cw20 in H. cb. eapply HC; eassumption.
  - left. unfold weights_changed in H. cb. destruct (sender =? Msgs.c_council x); cb; reflexivity.
  - left. unfold execute_actions in H. cb. apply run_actions_frame in H. destruct H as (_ & _ & _ & _ & E & _). exact E.
  - left. unfold deploy_initial in H. cb. destruct (dflt [] (ct_treasuries s)); cb; reflexivity.
Qed.

Lemma call_made o self s e sender coins m s' out t :
  co_dao_type o = Ok t -> is_ok (co_dao_version o) = true -> ctl_execute o self s e sender coins m = Ok (s', out) -> ctl_made t s -> ctl_made t s'.
Proof.
  intros HT HV H (I2 & I3). split.
  - intros p Hp. destruct (call_creates _ _ _ _ _ _ _ _ _ _ HT HV H) as [E|(q & E & F)]; [apply I2; congruence|]. assert (q = p) by congruence. subst q. exact F.
  - apply call_frame in H. destruct H as (H & _). rewrite H. exact I3.
Qed.

Lemma reply_made o self s e id r s' out t : ctl_reply o self s e id r = Ok (s', out) -> ctl_made t s -> ctl_made t s'.
Proof.
  intros H (I2 & I3). unfold ctl_made.
  unfold ctl_reply in H. destruct (id =? 1).
  { cb. cbn. split; [discriminate|]. intros id' p Hp. rewrite oget_oset in Hp.
    destruct (_ =? _); [injection Hp as <-; auto|eauto]. }
  destruct (id =? 2).
  { cb. apply resolve_ok in H. destruct H as (pl & p0 & _ & Hq & _ & ->). cbn in *. split; [assumption|].
    intros id' p Hp. rewrite oget_oset in Hp. destruct (_ =? _); [|eauto]. injection Hp as <-. exact (I3 _ _ Hq). }
  destruct (id =? 3); [cb; auto|]. destruct (id =? 4); [|discriminate].
  apply reply_vote_ok in H. destruct H as (pid & k & _ & _ & [->|(p0 & t0 & ea & Hq & _ & _ & _ & ->)]); cbn; [auto|].
  split; [assumption|]. intros id' p Hp. rewrite oget_oset in Hp. destruct (_ =? _); [|eauto]. injection Hp as <-. exact (I3 _ _ Hq).
Qed.

(** * The whole DAO *)
Section Made.
Context {X : Type}.
Variable Out : outside X.
Variable A : addrs.
Hypothesis HA : NoDup (dao_addrs A).
Notation world := (world X).
Variable t : dao_type.

Record orderly (w : world) : Prop := mk_orderly {
  or_en : en_wired A (w_enterprise w);
  or_of : ct_enterprise (w_ctl w) = a_enterprise A;
  or_type : en_type (w_enterprise w) = t;
  or_ctl : ctl_made t (w_ctl w)
}.

Lemma run_orderly ts w : orderly w -> orderly (world_run Out A w ts).
Proof.
  apply run_inv; clear ts w.
  - intros n w e s to m coins x w1 subs d [F1 F2 F3 F4] _ H. set (w' := set_ext (note w s (WasmExecute to m coins)) x) in *.
    pose proof (proj1 (handle_obeys Out A HA _ _ _ _ _ _ _ _ _ _ H F1)) as W1. pose proof (handle_type Out A _ _ _ _ _ _ _ _ _ _ H F1) as T1.
    assert (C : ct_enterprise (w_ctl w1) = a_enterprise A /\ ctl_made t (w_ctl w1)).
    { apply handle_all in H;
      destruct H as [(-> & HS & cm & -> & H)|[(-> & HS & cm & -> & H)|[(-> & HS & cm & outs & -> & H)|[(-> & HS & cm & outs & -> & H)|
        [(-> & HS & cm & pays & -> & H)|[(-> & HS & cm & -> & H)|[(-> & HS & cm & -> & H)|[(-> & HS & cm & -> & H)|(HI & HS)]]]]]]]]; try (rewrite (same_ctl _ _ _ HS ltac:(discriminate)); split; assumption).
      destruct (type_answer Out A t w' F2 F3) as (A1 & A2). split; [|eapply call_made; eassumption].
      apply call_frame in H. destruct H as (_ & E & _). rewrite E. exact F2. }
    constructor; [exact W1|exact (proj1 C)|rewrite T1; exact F3|exact (proj2 C)].
  - intros w e self id r w1 more [F1 F2 F3 F4] H.
    pose proof (proj1 (reply_obeys Out A HA _ _ _ _ _ _ _ H F1)) as W1. pose proof (reply_type Out A _ _ _ _ _ _ _ H F1) as T1.
    assert (C : ct_enterprise (w_ctl w1) = a_enterprise A /\ ctl_made t (w_ctl w1)).
    { apply reply_all in H. destruct H as [(HS & H)|[(HS & _)|HS]]; try (rewrite (same_ctl _ _ _ HS ltac:(discriminate)); split; assumption).
      split; [|eapply reply_made; eassumption]. apply reply_frame in H. destruct H as (_ & _ & E). rewrite E. exact F2. }
    constructor; [exact W1|exact (proj1 C)|rewrite T1; exact F3|exact (proj2 C)].
  - intros w e s m w1 d [F1 F2 F3 F4] _ H. apply other_all in H. pose proof (same_enterprise _ _ _ H ltac:(discriminate)) as E1. pose proof (same_ctl _ _ _ H ltac:(discriminate)) as E2.
    constructor; [rewrite E1; exact F1|rewrite E2; exact F2|rewrite E1; exact F3|rewrite E2; exact F4].
Qed.
End Made.

Lemma always_made X (Out : outside X) A w0 ts w id p : new_dao A w0 -> w = world_run Out A w0 ts ->
  oget (ct_proposals (w_ctl w)) id = Some p -> en_type (w_enterprise w) = en_type (w_enterprise w0) /\ well_made (en_type (w_enterprise w0)) p.
Proof.
  intros N -> H. assert (O : orderly A (en_type (w_enterprise w0)) w0).
  { destruct (new_records A w0 N) as (E1 & E2). split.
    - split; [exact (nd_enterprise _ _ N)|exact (nd_wiring _ _ N)].
    - exact E1.
    - reflexivity.
    - split.
      + destruct (nd_controller _ _ N) as (e & t & g & c & tr & HI). rewrite (instantiate_creating _ _ _ _ _ _ _ _ HI). discriminate.
      + rewrite E2. intros i q HH. rewrite oget_empty in HH. discriminate. }
  destruct (run_orderly Out A (nd_addrs _ _ N) _ ts w0 O) as [_ _ T (_ & M)]. split; [exact T|exact (M _ _ H)].
Qed.

Lemma change_about v g t a : well_formed t v g a -> list_change a -> about_lists a.
Proof.
  intros W L. destruct W; cbn [list_change] in L; try (exfalso; exact L).
  - cbn [about_lists]. split.
    + apply Forall_forall. intros x Hx. split; [apply H; apply in_or_app; left; exact Hx|]. destruct x; try exact I. exact (L _ _ Hx).
    + apply Forall_forall. intros x Hx. apply H. apply in_or_app. right. exact Hx.
  - destruct target; [exfalso; exact L|]. cbn [about_lists]. split; intros Hx; apply (H 0); try reflexivity; apply in_or_app; auto.
Qed.

Lemma recorded_changes X (Out : outside X) A w0 ts w id p : new_dao A w0 -> w = world_run Out A w0 ts ->
  oget (ct_proposals (w_ctl w)) id = Some p -> Forall list_change (pi_actions p) -> Forall about_lists (pi_actions p).
Proof.
  intros N EW H L. destruct (always_made X Out A w0 ts w id p N EW H) as (_ & _ & v & g & W).
  rewrite Forall_forall in *. intros a Ha. eapply change_about; [exact (W a Ha)|exact (L a Ha)].
Qed.

Lemma lists_always X (Out : outside X) A w0 ts w e s id p pl total ab y :
  new_dao A w0 -> tr_admin (w_treasury w0) = a_controller A -> free_calls Out -> w = world_run Out A w0 ts -> lasting w -> treasury_kept A w ->
  ripe Out A w e s id p pl total -> final_status pl total = Passed ab y -> Forall list_change (pi_actions p) ->
  exists t', relisted (pi_actions p) (w_treasury w) t' /\
  let now := restocked A (judged A w e s id p pl total (Passed ab y)) id (pi_actions p) t' in
  forall w', (exists gas d, go Out A gas w e (JMsg s (ask_resolution A id)) = Ok (w', d)) <->
  exists k, go Out A k now e (JSubs (a_controller A) (handed A p (Passed ab y))) = Ok (w', None).
Proof.
  intros N T F EW L K RP HV HH. apply (lists_decision X Out A w0 ts); try assumption.
  exact (recorded_changes X Out A w0 ts w id p N EW (rp_proposal _ _ _ _ _ _ _ _ _ RP) HH).
Qed.
