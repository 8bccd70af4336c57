(** A DAO created by the factory is one of those whose histories are studied. *)
From Verif Require Import Base OMap OMapLemmas Assets PollModel FundsModel FundsSpec MemberModel MemberSpec Msgs ControllerModel ControllerSpec
  TreasuryModel EnterpriseModel OutpostsModel FactoryModel FactorySpec WorldModel WorldSpec EnterpriseFacts FactoryFacts WorldFacts CreationModel.

Lemma fold_res_app {S B} (f : S -> B -> res S) l1 : forall s l2 s', fold_res f s (l1 ++ l2) = Ok s' ->
  exists s1, fold_res f s l1 = Ok s1 /\ fold_res f s1 l2 = Ok s'.
Proof.
  induction l1 as [|a l1 IH]; intros s l2 s' H; cbn [app fold_res] in *; [eauto|].
  apply bind_ok in H. destruct H as (s1 & H1 & H). rewrite H1. cbn [bind]. apply IH. exact H.
Qed.

Lemma fold_res_one {S B} (f : S -> B -> res S) a l s s' : fold_res f s (a :: l) = Ok s' ->
  exists s1, f s a = Ok s1 /\ fold_res f s1 l = Ok s'.
Proof. intros H. cbn [fold_res] in H. apply bind_ok in H. destruct H as (s1 & H1 & H). eauto. Qed.

Definition put_member (b : births) (a : addr) (s : member_state) : births :=
  mk_births (bi_enterprise b) (bi_ctl b) (bi_gov b) (oset (bi_member b) a s) (bi_funds b) (bi_treasury b) (bi_outposts b).

Lemma membership_births eo e f b c v m w d b' :
  fold_res (birth eo e f) b (membership_log c v m w d) = Ok b' -> is_some (d_token d) = wants_token m ->
  exists i st, born (membership_log c v m w d) (d_membership d) (InitMember i) /\ member_instantiate e i = Ok st /\
    b' = put_member b (d_membership d) st.
Proof.
  intros H HT.
  assert (G : forall a co i l, fold_res (birth eo e f) b (Created (d_membership d) a co (InitMember i) :: []) = Ok b' ->
     In (Created (d_membership d) a co (InitMember i)) l ->
     exists i st, born l (d_membership d) (InitMember i) /\ member_instantiate e i = Ok st /\ b' = put_member b (d_membership d) st).
  { intros a co i l G Hin. apply fold_res_one in G. destruct G as (b1 & G1 & G). inversion G; subst. cbn [birth] in G1.
    apply bind_ok in G1. destruct G1 as (st & G1 & G2). inversion G2; subst. exists i, st. split; [exists a, co; exact Hin|]. split; [exact G1|reflexivity]. }
  unfold membership_log in *. destruct m; cbn [wants_token] in HT; try (eapply G; [exact H|left; reflexivity]).
  - destruct (d_token d) as [t|]; [|discriminate]. apply fold_res_one in H. destruct H as (b1 & H1 & H). inversion H1; subst.
    eapply G; [exact H|right; left; reflexivity].
  - destruct (d_token d) as [t|]; [|discriminate]. apply fold_res_one in H. destruct H as (b1 & H1 & H). inversion H1; subst.
    eapply G; [exact H|right; left; reflexivity].
Qed.

Lemma one_hook m h : (forall k, ohas (m_hooks m) k = (k =? h)) -> okeys (m_hooks m) = [h].
Proof.
  intros H. assert (Hin : forall k, In k (okeys (m_hooks m)) <-> k = h).
  { intros k. rewrite okeys_In. specialize (H k). unfold ohas, is_some in H. destruct (oget (m_hooks m) k); destruct (N.eqb_spec k h); try discriminate; split; intros; try congruence; eauto; destruct H0; discriminate. }
  pose proof (okeys_NoDup (m_hooks m)) as Hn. destruct (okeys (m_hooks m)) as [|a [|b l]].
  - destruct (proj2 (Hin h) eq_refl).
  - f_equal. apply Hin. left. reflexivity.
  - exfalso. assert (a = h) by (apply Hin; left; reflexivity). assert (b = h) by (apply Hin; right; left; reflexivity). subst.
    inversion Hn as [|? ? Hx _]; subst. apply Hx. left. reflexivity.
Qed.

Lemma dao_distinct d : NoDup (contracts d) -> NoDup (dao_addrs (addrs_of d)).
Proof.
  unfold contracts, dao_addrs, addrs_of. cbn [app a_enterprise a_controller a_governance a_membership a_council a_funds a_treasury a_outposts].
  intros H.
  set (front := [d_enterprise d; d_controller d; d_governance d; d_council d; d_outposts d; d_treasury d]).
  assert (H' : NoDup (front ++ [d_membership d; d_funds d])).
  { assert (H1 : NoDup (front ++ d_membership d :: d_funds d :: opt (d_attestation d))).
    { destruct (d_token d) as [t|]; [|exact H]. apply (NoDup_remove_1 front _ t). exact H. }
    apply (NoDup_front (front ++ [d_membership d; d_funds d]) (opt (d_attestation d))). rewrite <- app_assoc. exact H1. }
  subst front. clear H.
  cbn [app] in H'. rewrite NoDup_cons_iff in *.
  repeat match goal with H : _ /\ _ |- _ => destruct H end. repeat (rewrite NoDup_cons_iff in * ).
  repeat match goal with H : _ /\ _ |- _ => destruct H end. cbn [In] in *.
  repeat split; try (cbn [In]; intuition congruence).
Qed.

(** The transaction of the factory that creates a DAO, carried out, makes a DAO that is new in the sense of the whole-DAO
    theorems: wired to itself, governed by its own controller, with empty ledgers and one hook. *)
Lemma creation_gives_dao o s sender m v fresh s' log eo e b :
  fa_tx s (mk_fa_call o sender (FaCreate m v) fresh) = Ok (s', log) -> NoDup fresh ->
  births_of eo e (fo_self o) log = Ok b ->
  exists d, assigned m fresh d /\ registered s s' d /\
    forall (X : Type) (x : X), exists w, dao_of d b x = Some w /\ w_ext w = x /\ new_dao (addrs_of d) w /\
      (exists ini, funds_instantiate (d_controller d) (d_enterprise d) (cm_minimum m) ini = Ok (w_funds w)) /\
      treasury_instantiate (d_controller d) (Some (dflt [] (cm_assets m))) (Some (dflt [] (cm_nfts m))) = Ok (w_treasury w) /\
      outposts_instantiate (d_enterprise d) = Ok (w_outposts w) /\
      en_components (w_enterprise w) = Some (wiring d) /\ en_type (w_enterprise w) = requested_type (cm_membership m) /\
      match requested_type (cm_membership m) with
      | DaoMultisig => forall u, oget (f_weights (w_funds w)) u = oget (m_weights (members_of (w_member w))) u
      | _ => forall u, oget (m_weights (members_of (w_member w))) u = None
               /\ oget (f_weights (w_funds w)) u
                  = if existsb (N.eqb u) (match cm_council m with Some c => cs_members c | None => [] end) then Some 1 else None
      end.
Proof.
  intros H Hf Hb. apply creation_exact in H. destruct H as (vi & ws & d & H1 & H2 & H3 & H4 & ->).
  exists d. split; [exact H3|]. split; [exact H4|]. intros X x.
  pose proof (fresh_contracts _ _ _ H3 Hf) as Hn. pose proof H3 as (_ & Hv & Ht & Ha).
  assert (HB : forall a i, born (creation_log (fo_self o) (fa_config s) vi m ws d) a (InitMember i) -> forall st, member_instantiate e i = Ok st ->
     m_enterprise (members_of st) = d_enterprise d /\ okeys (m_hooks (members_of st)) = [d_controller d]).
  { intros a i Hbn st Hst. destruct (creation_hooks _ _ _ _ _ _ _ _ _ _ Hbn Hst) as (A1 & A2). split; [exact A1|apply one_hook; exact A2]. }
  unfold births_of, creation_log in Hb. apply fold_res_app in Hb. destruct Hb as (b1 & Hb1 & Hb).
  apply fold_res_one in Hb1. destruct Hb1 as (c1 & G1 & Hb1). cbn [birth] in G1. apply bind_ok in G1. destruct G1 as (en & Hen & G1). inversion G1; subst c1; clear G1.
  apply fold_res_one in Hb1. destruct Hb1 as (c2 & G2 & Hb1). inversion G2; subst c2; clear G2.
  apply fold_res_one in Hb1. destruct Hb1 as (c3 & G3 & Hb1). cbn [birth] in G3. apply bind_ok in G3. destruct G3 as (ct & Hct & G3). inversion G3; subst c3; clear G3.
  apply fold_res_one in Hb1. destruct Hb1 as (c4 & G4 & Hb1). cbn [birth] in G4. apply bind_ok in G4. destruct G4 as (ad & Had & G4). inversion G4; subst c4; clear G4.
  apply fold_res_one in Hb1. destruct Hb1 as (c5 & G5 & Hb1). cbn [birth] in G5. apply bind_ok in G5. destruct G5 as (co & Hco & G5). inversion G5; subst c5; clear G5.
  apply fold_res_one in Hb1. destruct Hb1 as (c6 & G6 & Hb1). cbn [birth] in G6. apply bind_ok in G6. destruct G6 as (op & Hop & G6). inversion G6; subst c6; clear G6.
  apply fold_res_one in Hb1. destruct Hb1 as (c7 & G7 & Hb1). cbn [birth] in G7. apply bind_ok in G7. destruct G7 as (tr & Htr & G7). inversion G7; subst c7; clear G7.
  inversion Hb1; subst b1; clear Hb1.
  apply fold_res_app in Hb. destruct Hb as (b2 & Hb2 & Hb). apply membership_births in Hb2; [|exact Ht].
  destruct Hb2 as (i & st & Hi & Hst & ->).
  apply fold_res_app in Hb. destruct Hb as (b3 & Hb3 & Hb). apply fold_res_one in Hb3. destruct Hb3 as (c8 & G8 & Hb3). cbn [birth] in G8.
  apply bind_ok in G8. destruct G8 as (fd & Hfd & G8). inversion G8; subst c8; clear G8. inversion Hb3; subst b3; clear Hb3.
  apply fold_res_app in Hb. destruct Hb as (b4 & Hb4 & Hb).
  assert (E4 : b4 = mk_births (oset oempty (d_enterprise d) en) (oset oempty (d_controller d) ct) (oset oempty (d_governance d) (gov_init ad))
    (oset (oset oempty (d_council d) co) (d_membership d) st) (oset oempty (d_funds d) fd) (oset oempty (d_treasury d) tr) (oset oempty (d_outposts d) op)).
  { destruct (cm_attestation m); [destruct (d_attestation d)|]; inversion Hb4; reflexivity. }
  subst b4. clear Hb4.
  apply fold_res_app in Hb. destruct Hb as (b5 & Hb5 & Hb). apply fold_res_one in Hb5. destruct Hb5 as (c9 & G9 & Hb5). inversion Hb5; subst c9; clear Hb5.
  cbn [birth bi_enterprise bi_ctl bi_gov bi_member bi_funds bi_treasury bi_outposts] in G9. rewrite oget_oset_eq in G9. cbn [ok_or bind] in G9.
  apply bind_ok in G9. destruct G9 as ([en1 subs] & Hfin & G9). inversion G9; subst b5; clear G9.
  assert (E5 : b = mk_births (oset (oset oempty (d_enterprise d) en) (d_enterprise d) en1) (oset oempty (d_controller d) ct) (oset oempty (d_governance d) (gov_init ad))
    (oset (oset oempty (d_council d) co) (d_membership d) st) (oset oempty (d_funds d) fd) (oset oempty (d_treasury d) tr) (oset oempty (d_outposts d) op)).
  { destruct (cm_treasuries m) as [[|? ?]|]; inversion Hb; reflexivity. }
  subst b. clear Hb. unfold dao_of. cbn [bi_enterprise bi_ctl bi_gov bi_member bi_funds bi_treasury bi_outposts].
  pose proof (council_membership d Hn) as Hcm. rewrite !oget_oset_eq, oget_oset_ne by exact Hcm. rewrite oget_oset_eq.
  assert (ad = d_controller d) by (unfold addr_validate in Had; destruct (d_controller d =? 0); congruence). subst ad. clear Had.
  apply finalize_iff in Hfin. destruct Hfin as (_ & _ & _ & _ & _ & Hfin).
  eexists. split; [reflexivity|]. split; [reflexivity|].
  assert (Hc : en_components en1 = Some (wiring d) /\ en_finalized en1 = true /\ en_type en1 = en_type en) by (rewrite Hfin; repeat split; reflexivity).
  destruct Hc as (Hc1 & Hc2 & Hc3).
  assert (Hbm : born (creation_log (fo_self o) (fa_config s) vi m ws d) (d_membership d) (InitMember i)).
  { destruct Hi as (ad & cd & Hi). exists ad, cd. unfold creation_log. apply in_app_iff. right. apply in_app_iff. left. exact Hi. }
  destruct (HB _ _ Hbm _ Hst) as (M1 & M2).
  assert (Hbf : born (creation_log (fo_self o) (fa_config s) vi m ws d) (d_funds d) (InitFunds (d_controller d) (d_enterprise d) ws (cm_minimum m))).
  { do 2 eexists. unfold creation_log. apply in_app_iff. right. apply in_app_iff. right. apply in_app_iff. left. left. reflexivity. }
  split; [|split; [exists ws; exact Hfd|split; [exact Htr|split; [exact Hop|split; [exact Hc1|split]]]]].
  - split.
    + apply dao_distinct. exact Hn.
    + exact Hc2.
    + exists (d_attestation d). exact Hc1.
    + exists e, (requested_type (cm_membership m)), (cm_gov m), (cm_council m), (cm_treasuries m). exact Hct.
    + reflexivity.
    + exists e, i. exact Hst.
    + exact M1.
    + exact M2.
    + eauto.
    + reflexivity.
  - cbn [w_enterprise]. rewrite Hc3. apply bind_ok in Hen. destruct Hen as (? & _ & Hen). apply bind_ok in Hen. destruct Hen as (? & _ & Hen).
    inversion Hen; reflexivity.
  - exact (proj2 (weights_at_birth _ _ _ _ _ _ _ H2 Hn _ _ _ _ _ _ _ _ Hbm Hst Hbf Hfd)).
Qed.

(** So what holds of new DAOs and their histories holds of those created by the factory; for instance: *)
Lemma created_executes_once X (Out : outside X) (x : X) o s sender m v fresh s' log eo e b :
  fa_tx s (mk_fa_call o sender (FaCreate m v) fresh) = Ok (s', log) -> NoDup fresh ->
  births_of eo e (fo_self o) log = Ok b ->
  exists d w, assigned m fresh d /\ dao_of d b x = Some w /\
    forall ts id, lasting (world_run Out (addrs_of d) w ts) ->
      executions (addrs_of d) (world_run Out (addrs_of d) w ts) id =
        match oget (ct_proposals (w_ctl (world_run Out (addrs_of d) w ts))) id with
        | Some p => if is_some (pi_executed_at p) then 1 else 0
        | None => 0
        end.
Proof.
  intros H Hf Hb. destruct (creation_gives_dao _ _ _ _ _ _ _ _ _ _ _ H Hf Hb) as (d & H1 & _ & H3).
  destruct (H3 X x) as (w & Hw & _ & Hn & _). exists d, w. split; [exact H1|]. split; [exact Hw|].
  intros ts id L. exact (executed_once X Out _ _ ts id Hn L).
Qed.
