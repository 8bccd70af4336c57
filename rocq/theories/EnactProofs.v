(** Decisions about the rules and the description never fail. *)
From Verif Require Import Base OMap OMapLemmas Assets PollModel PollSpec PollProofs PollFacts FundsModel FundsSpec MemberModel MemberSpec Msgs
  ControllerModel ControllerSpec ControllerProofs ControllerFacts TreasuryModel EnterpriseModel OutpostsModel WorldModel WorldSpec WorldProofs WorldRun WorldFacts
  LiftProofs LiftFacts LiveSpec LiveProofs PurseSpec OrderSpec AbroadSpec AbroadProofs RuleProofs OrderProofs DoneSpec DoneProofs SettingSpec AccessProofs EnactSpec.

(** * Rules that are in order stay so *)
Definition fine (t : dao_type) (a : proposal_action) : Prop :=
  match a with
  | PUpdateGovConfig u =>
      (forall x, gu_vote_duration u = Change x -> 0 < x) /\ (forall x, gu_quorum u = Change x -> proper_share x) /\
      (forall x, gu_threshold u = Change x -> proper_share x) /\ (forall x, gu_veto_threshold u = Change (Some x) -> proper_share x) /\
      (t = DaoMultisig -> forall x, gu_minimum_deposit u = Change x -> x = None)
  | PUpdateCouncil c => exists x, validate_council c = Ok x
  | _ => True
  end.
Lemma well_fine t cur g a : well_formed t cur g a -> fine t a.
Proof.
  intros H. destruct H; try exact I.
  1: exists None; reflexivity.
  1: { eexists. apply validate_council_some. split; [assumption|]. split; [assumption|]. split; [|split; [assumption|split; [assumption|reflexivity]]].
       destruct (cs_allowed spec); cbn; [auto|constructor]. }
  destruct H4 as (S1 & S2 & S3 & S4 & S5). cbn [fine].
  split; [|split; [|split; [|split]]].
  - intros x E. rewrite E in H2. cbn in H2. rewrite <- H2. exact S1.
  - intros x E. rewrite E in H. cbn in H. rewrite <- H. exact S2.
  - intros x E. rewrite E in H0. cbn in H0. rewrite <- H0. exact S3.
  - intros x E. rewrite E in H1. cbn in H1. apply S4. exact H1.
  - intros T x E. rewrite E in H3. cbn in H3. rewrite <- H3. exact (S5 T).
Qed.
Lemma ruled_sane t g a : sane_config t g -> fine t a -> sane_config t (ruled g a).
Proof.
  intros S F. assert (S0 := S). destruct S0 as (S1 & S2 & S3 & S4 & S5). destruct a; try exact S. cbn [fine] in F.
  destruct F as (F1 & F2 & F3 & F4 & F5). unfold sane_config. cbn [ruled gc_vote_duration gc_quorum gc_threshold gc_veto_threshold gc_minimum_deposit].
  split; [destruct (gu_vote_duration u); cbn; auto|]. split; [destruct (gu_quorum u); cbn; auto|]. split; [destruct (gu_threshold u); cbn; auto|].
  split.
  - intros v E. destruct (gu_veto_threshold u) as [x|]; cbn in E; [subst x; auto|auto].
  - intros T. destruct (gu_minimum_deposit u); cbn; auto.
Qed.
Lemma rules_sane t l : forall g, sane_config t g -> Forall (fine t) l -> sane_config t (fold_left ruled l g).
Proof. induction l as [|a l IH]; intros g S F; [exact S|]. inversion F; subst. cbn [fold_left]. apply IH; [apply ruled_sane; assumption|assumption]. Qed.

(** * The controller *)
Definition ctl_fits (t : dao_type) (s : ctl) : Prop :=
  sane_config t (ct_config s) /\ (forall p, ct_creating s = Some p -> Forall (fine t) (pi_actions p)) /\
  (forall id p, oget (ct_proposals s) id = Some p -> Forall (fine t) (pi_actions p)).

Lemma actions_fine o s t l : co_dao_type o = Ok t -> is_ok (co_dao_version o) = true -> validate_actions o s t l = Ok tt -> Forall (fine t) l.
Proof.
  intros HT HV H. destruct (co_dao_version o) as [cur|] eqn:E; [|discriminate]. apply (actions_valid o s t cur l E) in H. destruct H as (_ & H).
  eapply Forall_impl; [|exact H]. intros a. apply well_fine.
Qed.

Lemma call_creating o self s e sender coins m s' out t :
  co_dao_type o = Ok t -> is_ok (co_dao_version o) = true -> ctl_execute o self s e sender coins m = Ok (s', out) ->
  ct_creating s' = ct_creating s \/ exists p, ct_creating s' = Some p /\ Forall (fine t) (pi_actions p).
Proof.
  intros HT HV H.
  assert (HC : forall actions d proposer s1 o1, create_proposal o s e actions d proposer = Ok (s1, o1) ->
     exists p, ct_creating s1 = Some p /\ Forall (fine t) (pi_actions p)).
  { intros actions d proposer s1 o1 HH. apply create_ok in HH. destruct HH as (c & w & t' & en & _ & _ & _ & _ & HT' & HA & _ & -> & _).
    rewrite HT in HT'. injection HT' as <-. eexists. split; [reflexivity|]. apply (actions_fine o s); try assumption. }
  destruct m; cbn [ctl_execute] in H.
  - right. unfold create_proposal_coins in H. cb. eapply HC; eassumption.
  - right. unfold create_proposal_nft in H. cb. eapply HC; eassumption.
  - right. unfold create_council_proposal in H. cb.
    match goal with H : new_poll_msg _ _ _ _ _ _ _ _ = Ok _ |- _ => apply new_poll_ok in H end.
    assert (HVA : validate_actions o s t actions = Ok tt) by
      (match goal with H : co_dao_type o = Ok ?t', H2 : validate_actions _ _ ?t' _ = Ok ?u |- _ => rewrite HT in H; injection H as ->; destruct u; exact H2 end).
    exists (mk_info Council None None None actions). split; [|exact (actions_fine o s t _ HT HV HVA)].
    destruct H as (c' & en & _ & _ & -> & _) || destruct H as (en & c' & _ & _ & -> & _). reflexivity.
  - left. unfold ctl_cast_vote in H. cb. destruct x4. cb. reflexivity.
  - left. unfold ctl_cast_council_vote in H. cb. reflexivity.
  - left. unfold execute_proposal, end_proposal in H. cb. reflexivity.
  - right. destruct hook as [[actions owner]|]; [|discriminate]. unfold create_proposal_cw20 in H. cb. eapply HC; eassumption.
  - left. unfold weights_changed in H. cb. destruct (sender =? Msgs.c_council x); cb; reflexivity.
  - left. unfold execute_actions in H. cb. apply run_actions_frame in H. destruct H as (_ & _ & _ & _ & E & _). exact E.
  - left. unfold deploy_initial in H. cb. destruct (dflt [] (ct_treasuries s)); cb; reflexivity.
Qed.

Lemma call_fits o self s e sender coins m s' out t :
  co_dao_type o = Ok t -> is_ok (co_dao_version o) = true -> ctl_execute o self s e sender coins m = Ok (s', out) -> ctl_fits t s -> ctl_fits t s'.
Proof.
  intros HT HV H (I1 & I2 & I3). split; [|split].
  - apply (call_config _ _ _ _ _ _ _ _ _ (sane_config t) (fun _ => True)) in H; [exact (proj1 H)| | |exact I1|exact I].
    + intros t' g u Ht Hv. rewrite HT in Ht. injection Ht as <-. eapply validate_gov_config_ok. exact Hv.
    + intros. exact I.
  - intros p Hp. destruct (call_creating _ _ _ _ _ _ _ _ _ _ HT HV H) as [E|(q & E & F)]; [apply I2; congruence|]. assert (q = p) by congruence. subst q. exact F.
  - apply call_frame in H. destruct H as (H & _). rewrite H. exact I3.
Qed.

Lemma reply_fits o self s e id r s' out t : ctl_reply o self s e id r = Ok (s', out) -> ctl_fits t s -> ctl_fits t s'.
Proof.
  intros H (I1 & I2 & I3). split.
  { apply reply_frame in H. destruct H as (-> & _). assumption. }
  unfold ctl_reply in H. destruct (id =? 1).
  { cb. cbn. split; [discriminate|]. intros id' p Hp. rewrite oget_oset in Hp.
    destruct (_ =? _); [injection Hp as <-; auto|eauto]. }
  destruct (id =? 2).
  { cb. apply resolve_ok in H. destruct H as (pl & p0 & _ & Hq & _ & ->). cbn in *. split; [assumption|].
    intros id' p Hp. rewrite oget_oset in Hp. destruct (_ =? _); [|eauto]. injection Hp as <-. exact (I3 _ _ Hq). }
  destruct (id =? 3); [cb; auto|]. destruct (id =? 4); [|discriminate].
  apply reply_vote_ok in H. destruct H as (pid & k & _ & _ & [->|(p0 & t0 & ea & Hq & _ & _ & _ & ->)]); cbn; [auto|].
  split; [assumption|]. intros id' p Hp. rewrite oget_oset in Hp. destruct (_ =? _); [|eauto]. injection Hp as <-. exact (I3 _ _ Hq).
Qed.

(** * The whole DAO *)
Section Fits.
Context {X : Type}.
Variable Out : outside X.
Variable A : addrs.
Hypothesis HA : NoDup (dao_addrs A).
Notation world := (world X).
Variable t : dao_type.

Record fits (w : world) : Prop := mk_fits {
  fi_en : en_wired A (w_enterprise w);
  fi_of : ct_enterprise (w_ctl w) = a_enterprise A;
  fi_type : en_type (w_enterprise w) = t;
  fi_ctl : ctl_fits t (w_ctl w)
}.

Lemma type_answer (w : world) : ct_enterprise (w_ctl w) = a_enterprise A -> en_type (w_enterprise w) = t ->
  co_dao_type (ctl_oracle_of Out A w) = Ok t /\ is_ok (co_dao_version (ctl_oracle_of Out A w)) = true.
Proof. intros E <-. cbn. unfold enterprise_at. rewrite E, N.eqb_refl. split; reflexivity. Qed.

Lemma run_fits ts w : fits w -> fits (world_run Out A w ts).
Proof.
  apply run_inv; clear ts w.
  - intros n w e s to m coins x w1 subs d [F1 F2 F3 F4] _ H. set (w' := set_ext (note w s (WasmExecute to m coins)) x) in *.
    pose proof (proj1 (handle_obeys Out A HA _ _ _ _ _ _ _ _ _ _ H F1)) as W1. pose proof (handle_type Out A _ _ _ _ _ _ _ _ _ _ H F1) as T1.
    assert (C : ct_enterprise (w_ctl w1) = a_enterprise A /\ ctl_fits t (w_ctl w1)).
    { apply handle_all in H;
      destruct H as [(-> & HS & cm & -> & H)|[(-> & HS & cm & -> & H)|[(-> & HS & cm & outs & -> & H)|[(-> & HS & cm & outs & -> & H)|
        [(-> & HS & cm & pays & -> & H)|[(-> & HS & cm & -> & H)|[(-> & HS & cm & -> & H)|[(-> & HS & cm & -> & H)|(HI & HS)]]]]]]]]; try (rewrite (same_ctl _ _ _ HS ltac:(discriminate)); split; assumption).
      destruct (type_answer w' F2 F3) as (A1 & A2). split; [|eapply call_fits; eassumption].
      apply call_frame in H. destruct H as (_ & E & _). rewrite E. exact F2. }
    constructor; [exact W1|exact (proj1 C)|rewrite T1; exact F3|exact (proj2 C)].
  - intros w e self id r w1 more [F1 F2 F3 F4] H.
    pose proof (proj1 (reply_obeys Out A HA _ _ _ _ _ _ _ H F1)) as W1. pose proof (reply_type Out A _ _ _ _ _ _ _ H F1) as T1.
    assert (C : ct_enterprise (w_ctl w1) = a_enterprise A /\ ctl_fits t (w_ctl w1)).
    { apply reply_all in H. destruct H as [(HS & H)|[(HS & _)|HS]]; try (rewrite (same_ctl _ _ _ HS ltac:(discriminate)); split; assumption).
      split; [|eapply reply_fits; eassumption]. apply reply_frame in H. destruct H as (_ & _ & E). rewrite E. exact F2. }
    constructor; [exact W1|exact (proj1 C)|rewrite T1; exact F3|exact (proj2 C)].
  - intros w e s m w1 d [F1 F2 F3 F4] _ H. apply other_all in H. pose proof (same_enterprise _ _ _ H ltac:(discriminate)) as E1. pose proof (same_ctl _ _ _ H ltac:(discriminate)) as E2.
    constructor; [rewrite E1; exact F1|rewrite E2; exact F2|rewrite E1; exact F3|rewrite E2; exact F4].
Qed.

(** ** Running the actions *)
Lemma with_same (s : ctl) : with_config s (ct_config s) = s. Proof. destruct s; reflexivity. Qed.
Lemma ruled_is g u : apply_config g u = ruled g (PUpdateGovConfig u). Proof. reflexivity. Qed.

Lemma actions_run o att l : co_components o = Ok (wiring_of A att) -> co_dao_type o = Ok t -> Forall house l -> Forall (fine t) l ->
  forall s subs, ct_enterprise s = a_enterprise A -> sane_config t (ct_config s) ->
  fold_res (run_action_acc o) (s, subs) l = Ok (with_config s (fold_left ruled l (ct_config s)),
    subs ++ map plain (map (fun u => enterprise_call A (EnUpdateMetadata u)) (renames l))).
Proof.
  intros HC HT H1 H2. induction l as [|a l IH]; intros s subs HE HS.
  - cbn [fold_res fold_left renames flat_map map]. rewrite app_nil_r, with_same. reflexivity.
  - inversion H1 as [|? ? Ha Hl]; subst. inversion H2 as [|? ? Fa Fl]; subst. specialize (IH Hl Fl). cbn [fold_res].
    destruct a; try (exfalso; exact Ha).
    + unfold run_action_acc at 1. cbn [fst snd run_action bind]. rewrite (IH s _ HE HS). cbn [fold_left ruled renames flat_map app map]. rewrite HE, <- app_assoc. reflexivity.
    + unfold run_action_acc at 1. cbn [fst snd run_action]. unfold act_gov_config. rewrite HT. cbn [bind]. rewrite ruled_is.
      pose proof (ruled_sane t _ _ HS Fa) as S1. destruct (proj2 (validate_gov_config_ok t _ tt) S1).
      assert (V : validate_gov_config t (ruled (ct_config s) (PUpdateGovConfig u)) = Ok tt) by (apply validate_gov_config_ok; exact S1).
      rewrite V, HC. cbn [bind]. cbn [house] in Ha. rewrite Ha. cbn [bind]. rewrite app_nil_r.
      rewrite (IH (with_config s (ruled (ct_config s) (PUpdateGovConfig u))) subs HE S1).
      cbn [fold_left renames flat_map app]. reflexivity.
Qed.

(** ** Delivering the messages *)
Definition described_as (w : world) (us : list metadata_update) : world :=
  let n := w_enterprise w in
  mk_world
    (mk_enterprise (en_creation n) (en_factory n) (en_versioning n) (fold_left renamed us (en_metadata n)) (en_version n) (en_type n)
       (en_finalized n) (en_components n))
    (w_ctl w) (w_gov w) (w_member w) (w_council w) (w_funds w) (w_treasury w) (w_outposts w)
    (rev (map (fun u => (a_controller A, enterprise_call A (EnUpdateMetadata u))) us) ++ w_log w) (w_upgraded w) (w_ext w).

Hypothesis HF : free_calls Out.

Lemma deliver_one n (w : world) e u : en_wired A (w_enterprise w) ->
  go Out A (S (S n)) w e (JMsg (a_controller A) (enterprise_call A (EnUpdateMetadata u))) = Ok (described_as w [u], None).
Proof.
  intros (_ & att & HC). unfold enterprise_call. cbn [go]. cbn [note w_ext]. rewrite HF. cbn [bind].
  destruct (apart A HA) as (N1 & N2 & N3 & N4 & N5 & N6 & N7 & N8 & N9 & N10 & N11 & N12 & N13 & N14 & N15 & N16 & N17 & N18 & N19 & N20 & N21 & N22 & N23 & N24 & N25 & N26 & N27 & N28).
  unfold handle.
  repeat match goal with |- context [a_enterprise A =? ?b] =>
    lazymatch b with a_enterprise A => fail | _ => rewrite (proj2 (N.eqb_neq (a_enterprise A) b)) by (apply not_eq_sym; assumption) || rewrite (proj2 (N.eqb_neq (a_enterprise A) b)) by assumption end end.
  rewrite N.eqb_refl. cbn [enterprise_execute set_ext note w_enterprise]. unfold update_metadata, en_controller_only. rewrite HC. cbn [ok_or bind wiring_of c_controller].
  rewrite N.eqb_refl. cbn [guard bind]. rewrite <- HC. reflexivity.
Qed.

Lemma described_cons (w : world) u us : described_as (described_as w [u]) us = described_as w (u :: us).
Proof. unfold described_as. cbn [w_enterprise w_ctl w_gov w_member w_council w_funds w_treasury w_outposts w_log w_upgraded w_ext en_creation en_factory en_versioning en_metadata en_version en_type en_finalized en_components fold_left map rev app]. rewrite <- app_assoc. reflexivity. Qed.

Lemma go_next n (w w1 w2 : world) e self m rest d d2 : go Out A n w e (JMsg self m) = Ok (w1, d) -> go Out A n w1 e (JSubs self rest) = Ok (w2, d2) ->
  go Out A (S n) w e (JSubs self (plain m :: rest)) = Ok (w2, d2).
Proof. intros H1 H2. cbn [go plain sm_msg sm_reply]. rewrite H1. exact H2. Qed.

Lemma deliver_all us : forall (w : world) e, en_wired A (w_enterprise w) -> exists k,
  go Out A k w e (JSubs (a_controller A) (map plain (map (fun u => enterprise_call A (EnUpdateMetadata u)) us))) = Ok (described_as w us, None).
Proof.
  induction us as [|u us IH]; intros w e HW.
  - exists 1%nat. cbn. destruct w as [n c]; destruct n; reflexivity.
  - destruct (IH (described_as w [u]) e) as (k & Hk).
    { destruct HW as (H1 & att & H2). split; [exact H1|exists att; exact H2]. }
    exists (S (S (S k))). cbn [map]. rewrite described_cons in Hk. eapply go_next; [exact (deliver_one k w e u HW)|].
    apply (go_more Out A k (S (S k))) in Hk; [exact Hk|discriminate|lia].
Qed.

Lemma actions_take_effect (w : world) e id p : fits w -> oget (ct_proposals (w_ctl w)) id = Some p -> Forall house (pi_actions p) ->
  exists k, go Out A k w e (JMsg (a_controller A) (run_order A id)) = Ok (enacted A w id (pi_actions p), None).
Proof.
  intros [F1 F2 F3 (S1 & S2 & S3)] Hp HH. pose proof (S3 _ _ Hp) as HFi.
  set (w1 := note w (a_controller A) (run_order A id)).
  set (w2 := set_ctl w1 (with_config (w_ctl w) (fold_left ruled (pi_actions p) (ct_config (w_ctl w))))).
  destruct (deliver_all (renames (pi_actions p)) w2 e F1) as (k & Hk).
  exists (S k). unfold run_order at 1. cbn [go]. change (note w (a_controller A) (WasmExecute (a_controller A) (ToController (CExecuteActions id)) [])) with w1.
  rewrite HF. cbn [bind]. assert (EX : set_ext w1 (w_ext w1) = w1) by reflexivity. rewrite EX.
  unfold handle. rewrite N.eqb_refl. cbn [ctl_execute]. unfold execute_actions. rewrite N.eqb_refl. cbn [guard bind].
  change (w_ctl w1) with (w_ctl w). rewrite Hp. cbn [ok_or bind].
  destruct (components_wired A w1 F1) as (att & HC).
  rewrite (actions_run (ctl_oracle_of Out A w1) att (pi_actions p)); [|cbn; rewrite F2; exact HC|exact (proj1 (type_answer w1 F2 F3))|exact HH|exact HFi|exact F2|exact S1].
  cbn [bind app]. fold w2. rewrite Hk. cbn [bind]. f_equal.
Qed.
End Fits.
