(** Facts about the front contract. *)
From Verif Require Import Base OMap OMapLemmas Assets PollModel FundsModel MemberModel Msgs ControllerModel TreasuryModel EnterpriseModel OutpostsModel WorldModel FacadeModel
  FrontModel FrontSpec.

Lemma migrate_cases f v1 v2 :
  front_migrate f v1 v2 =
  if match v1 with Some 0 => true | _ => false end || match v2 with Some 0 => true | _ => false end then Err EInvalidAddr
  else Ok (mk_front (match v1 with Some a => a | None => ff_v1 f end) (match v2 with Some a => a | None => ff_v2 f end)).
Proof. destruct f as [a b], v1 as [[|x]|], v2 as [[|y]|]; reflexivity. Qed.

Lemma last_addresses a b l g : let f := front_run (mk_front a b) l in last_given g (facade_for (mk_front a b) g) l (facade_for f g).
Proof.
  cbn zeta. induction l as [|o l IH] using rev_ind; [constructor|]. unfold front_run in *. rewrite fold_left_app. cbn [fold_left]. set (f := fold_left front_step l (mk_front a b)) in *.
  destruct o as [s|i|v1 v2]; try (apply LG_old; [exact IH|left; reflexivity]).
  unfold front_step. cbn [front_exec]. rewrite migrate_cases.
  assert (P : (match v1 with Some 0 => true | _ => false end || match v2 with Some 0 => true | _ => false end = false) <-> proper v1 /\ proper v2).
  { unfold proper. destruct v1 as [[|x]|], v2 as [[|y]|]; cbn; split; try discriminate; try tauto; try (intros _; split; discriminate). }
  destruct (match v1 with Some 0 => true | _ => false end || match v2 with Some 0 => true | _ => false end) eqn:E.
  - apply LG_old; [exact IH|]. right. cbn [given]. intros H. apply P in H. discriminate.
  - destruct (proj1 P eq_refl) as (P1 & P2). destruct g; cbn [facade_for ff_v1 ff_v2] in *.
    + destruct v1 as [x|]; [apply LG_new; [exact P1|exact P2|reflexivity]|apply LG_old; [exact IH|left; reflexivity]].
    + destruct v2 as [x|]; [apply LG_new; [exact P1|exact P2|reflexivity]|apply LG_old; [exact IH|left; reflexivity]].
Qed.

Lemma last_unique g a0 l : forall x, last_given g a0 l x -> forall y, last_given g a0 l y -> x = y.
Proof.
  induction 1 as [|l o a P1 P2 G|l o a H IH D]; intros y Hy; inversion Hy as [E|l' o' a' Q1 Q2 K E|l' o' a' Q D' E]; subst y.
  - reflexivity.
  - destruct l'; discriminate.
  - destruct l'; discriminate.
  - destruct l; discriminate.
  - apply app_inj_tail in E. destruct E as (-> & ->). congruence.
  - apply app_inj_tail in E. destruct E as (-> & ->). destruct D' as [D'|D']; [congruence|tauto].
  - destruct l; discriminate.
  - apply app_inj_tail in E. destruct E as (-> & ->). destruct D as [D|D]; [congruence|tauto].
  - apply app_inj_tail in E. destruct E as (-> & ->). apply IH. exact Q.
Qed.

Lemma started_proper v1 v2 f : front_instantiate v1 v2 = Ok f <-> v1 <> 0 /\ v2 <> 0 /\ f = mk_front v1 v2.
Proof.
  unfold front_instantiate, addr_validate. destruct (N.eqb_spec v1 0), (N.eqb_spec v2 0); cbn [bind]; split; try discriminate; try tauto.
  - intros H. injection H as <-. auto.
  - intros (_ & _ & ->). reflexivity.
Qed.

Lemma facade_ok f W a g d : leads W a g d -> front_facade f W a = Ok (facade_for f g, d).
Proof.
  unfold front_facade, assume_treasury, assume_enterprise. intros H. destruct H as [H|admin en H1 H2 H3|H1 H2 H3].
  - rewrite H. reflexivity.
  - rewrite H1, H2. cbn [bind]. rewrite H3. reflexivity.
  - rewrite H1, H3. destruct (an_admin W a) as [admin|e] eqn:E; cbn [bind]; [|reflexivity].
    destruct (an_config W admin) as [en|e] eqn:E2; cbn [bind]; [|reflexivity]. destruct (H2 admin eq_refl en E2).
Qed.

Lemma facade_leads f W a t : front_facade f W a = Ok t -> exists g d, leads W a g d /\ t = (facade_for f g, d).
Proof.
  unfold front_facade, assume_treasury, assume_enterprise. destruct (an_old_info W a) eqn:E.
  - intros H. injection H as <-. exists Old, a. split; [constructor; exact E|reflexivity].
  - destruct (an_admin W a) as [admin|e] eqn:E1; cbn [bind].
    + destruct (an_config W admin) as [en|e] eqn:E2; cbn [bind].
      * intros H. injection H as <-. exists New, en. split; [econstructor; eassumption|reflexivity].
      * destruct (an_components W a) eqn:E3; [|discriminate]. intros H. injection H as <-. exists New, a. split; [|reflexivity].
        apply L_enterprise; [exact E| |exact E3]. intros ad K en K2. congruence.
    + destruct (an_components W a) eqn:E3; [|discriminate]. intros H. injection H as <-. exists New, a. split; [|reflexivity].
      apply L_enterprise; [exact E| |exact E3]. intros ad K en K2. congruence.
Qed.

Lemma leads_one W a g d g' d' : leads W a g d -> leads W a g' d' -> g = g' /\ d = d'.
Proof.
  intros H H'. pose proof (facade_ok (mk_front 1 2) _ _ _ _ H) as E. rewrite (facade_ok (mk_front 1 2) _ _ _ _ H') in E. injection E as E1 E2.
  split; [|symmetry; exact E2]. destruct g, g'; try reflexivity; discriminate.
Qed.

Lemma passed_on R (ask : addr -> front_query -> res R) f W q g d : leads W (about q) g d ->
  exists q', same_about q q' d /\ front_answer ask f W q = ask (facade_for f g) q'.
Proof.
  intros H. apply (facade_ok f) in H. destruct q; cbn [about front_answer] in *; rewrite H; cbn [bind];
    (eexists; split; [|reflexivity]); repeat split.
Qed.

Lemma same_one q q1 q2 d : same_about q q1 d -> same_about q q2 d -> q1 = q2.
Proof.
  intros (A1 & A2 & A3) (B1 & B2 & B3). rewrite <- A1 in B1. rewrite <- A2 in B2. rewrite <- A3 in B3. clear A1 A2 A3.
  destruct q1, q2; cbn [question] in B1; try discriminate B1; cbn [about details] in *; congruence.
Qed.

Lemma answered_only R (ask : addr -> front_query -> res R) f W q r : front_answer ask f W q = Ok r ->
  exists g d q', leads W (about q) g d /\ same_about q q' d /\ ask (facade_for f g) q' = Ok r.
Proof.
  intros H. assert (T : exists t, front_facade f W (about q) = Ok t).
  { destruct q; cbn [about front_answer] in *; apply bind_ok in H; destruct H as (t & H & _); eauto. }
  destruct T as (t & T). apply facade_leads in T. destruct T as (g & d & L & _). destruct (passed_on _ ask f W q g d L) as (q' & S & E).
  exists g, d, q'. rewrite <- E. auto.
Qed.

(** The answers of the contracts of a DAO and of everybody else *)
Definition seen {X} (A : addrs) (F : foreign) (w : world X) : answers :=
  mk_answers (old_info_at A F) (admin_at A F w) (config_at A F w) (has_components A F w).

Definition posed (q : front_query) (d : addr) : front_query :=
  match q with
  | QTreasuryAddress _ => QTreasuryAddress d
  | QDaoInfo _ => QDaoInfo d
  | QComponentContracts _ => QComponentContracts d
  | QMemberInfo _ p => QMemberInfo d p
  | QListMultisigMembers _ p => QListMultisigMembers d p
  | QAssetWhitelist _ p => QAssetWhitelist d p
  | QNftWhitelist _ p => QNftWhitelist d p
  | QProposal _ p => QProposal d p
  | QProposals _ p => QProposals d p
  | QProposalStatus _ p => QProposalStatus d p
  | QMemberVote _ p => QMemberVote d p
  | QProposalVotes _ p => QProposalVotes d p
  | QUserStake _ p => QUserStake d p
  | QTotalStakedAmount _ => QTotalStakedAmount d
  | QStakedNfts _ p => QStakedNfts d p
  | QClaims _ p => QClaims d p
  | QReleasableClaims _ p => QReleasableClaims d p
  | QCrossChainTreasuries _ p => QCrossChainTreasuries d p
  | QHasIncompleteV2Migration _ => QHasIncompleteV2Migration d
  | QHasUnmovedStakesOrClaims _ => QHasUnmovedStakesOrClaims d
  | QV2MigrationStage _ => QV2MigrationStage d
  | QCreateProposalAdapted _ p => QCreateProposalAdapted d p
  | QCreateProposalWithDenomDepositAdapted _ p => QCreateProposalWithDenomDepositAdapted d p
  | QCreateProposalWithTokenDepositAdapted _ p => QCreateProposalWithTokenDepositAdapted d p
  | QCreateProposalWithNftDepositAdapted _ p => QCreateProposalWithNftDepositAdapted d p
  | QCreateCouncilProposalAdapted _ p => QCreateCouncilProposalAdapted d p
  | QCastVoteAdapted _ p => QCastVoteAdapted d p
  | QCastCouncilVoteAdapted _ p => QCastCouncilVoteAdapted d p
  | QExecuteProposalAdapted _ p => QExecuteProposalAdapted d p
  | QStakeAdapted _ p => QStakeAdapted d p
  | QUnstakeAdapted _ p => QUnstakeAdapted d p
  | QClaimAdapted _ => QClaimAdapted d
  end.

Lemma front_dispatches X R A F (w : world X) (ask : addr -> front_query -> res R) f q : exists pose_to,
  (forall d, same_about q (pose_to d) d) /\
  front_answer ask f (seen A F w) q = dispatch A F (fun d => ask (ff_v1 f) (pose_to d)) (fun d => ask (ff_v2 f) (pose_to d)) w (about q).
Proof.
  assert (G : front_facade f (seen A F w) (about q) =
    match get_facade A F w (about q) with Ok (OldDao d) => Ok (ff_v1 f, d) | Ok (NewDao d) => Ok (ff_v2 f, d) | Err e => Err e end).
  { unfold front_facade, get_facade, assume_treasury, by_treasury, assume_enterprise, by_enterprise, seen. cbn [an_old_info an_admin an_config an_components].
    destruct (old_info_at A F (about q)); [reflexivity|]. destruct (admin_at A F w (about q)) as [ad|e]; cbn [bind].
    - destruct (config_at A F w ad) as [en|e]; cbn [bind]; [reflexivity|]. destruct (has_components A F w (about q)); reflexivity.
    - destruct (has_components A F w (about q)); reflexivity. }
  exists (posed q). split; [intros d; destruct q; repeat split|]. unfold dispatch.
  destruct q; cbn [about front_answer posed] in *; rewrite G; destruct (get_facade A F w contract) as [[d|d]|e]; reflexivity.
Qed.
