(** Facts about the factory, in the form of the properties C48, C49 and C65. *)
From Verif Require Import Base OMap OMapLemmas Assets PollModel FundsModel FundsSpec FundsProofs FundsFacts MemberModel MemberSpec MemberProofs MemberFacts
  Msgs TreasuryModel TreasurySpec TreasuryProofs TreasuryFacts EnterpriseModel EnterpriseSpec EnterpriseFacts OutpostsModel
  FactoryModel FactorySpec FactoryProofs.

(** ** C49: the creation *)

Lemma creation_exact o s sender m v fresh s' log :
  fa_tx s (mk_fa_call o sender (FaCreate m v) fresh) = Ok (s', log) ->
  exists vi w d, version_asked o s v = Ok vi /\ membership_accepted o m w /\ assigned m fresh d
    /\ registered s s' d /\ log = creation_log (fo_self o) (fa_config s) vi m w d.
Proof.
  intros H. apply creation_iff in H. destruct H as (vi & w & d & H1 & H2 & H3 & -> & ->).
  exists vi, w, d. split; [exact H1|]. split; [exact H2|]. split; [exact H3|]. split; [|reflexivity].
  repeat split.
Qed.

Lemma creation_accepted o s sender m v fresh vi w d :
  version_asked o s v = Ok vi -> membership_accepted o m w -> assigned m fresh d ->
  exists s', fa_tx s (mk_fa_call o sender (FaCreate m v) fresh)
             = Ok (s', creation_log (fo_self o) (fa_config s) vi m w d).
Proof.
  intros H1 H2 H3. eexists. apply creation_iff. exists vi, w, d. split; [exact H1|]. split; [exact H2|].
  split; [exact H3|]. split; reflexivity.
Qed.

(** ** Who may migrate the new contracts *)

Lemma admin_after_app l1 : forall l2 a n, admin_after (l1 ++ l2) a n = admin_after l2 a (admin_after l1 a n).
Proof.
  induction l1 as [|x l1 IH]; intros l2 a n; [reflexivity|]. destruct x as [b ad c i|msg]; cbn [app admin_after].
  - apply IH.
  - destruct msg; apply IH.
Qed.

(** Created entries of [l] other than that at [b] keep the record of [b]. *)
Lemma admin_kept l b n :
  Forall (fun e => match e with Created a _ _ _ => a <> b | Sent (WasmUpdateAdmin a _) => a <> b | _ => True end) l ->
  admin_after l b n = n.
Proof.
  induction 1 as [|e l He Hl IH]; [reflexivity|]. destruct e as [a ad c i|msg]; cbn [admin_after].
  - apply N.eqb_neq in He. rewrite He. exact IH.
  - destruct msg; try exact IH. apply N.eqb_neq in He. rewrite He. exact IH.
Qed.

(** All that is created in [l] is created with the admin [x]. *)
Lemma admin_all x l : forall b n,
  Forall (fun e => match e with Created _ ad _ _ => ad = x | Sent (WasmUpdateAdmin _ _) => False | _ => True end) l ->
  (n = Some x \/ exists ad c i, In (Created b ad c i) l) -> admin_after l b n = Some x.
Proof.
  induction l as [|e l IH]; intros b n Hf Hn.
  - destruct Hn as [->|(ad & c & i & [])]. reflexivity.
  - inversion Hf as [|? ? He Hl]; subst. destruct e as [a ad c i|msg]; cbn [admin_after].
    + subst ad. apply IH; [exact Hl|]. destruct (N.eqb_spec a b) as [->|Hne]; [left; reflexivity|].
      destruct Hn as [Hn|(ad & c' & i' & [Hi|Hi])]; [left; exact Hn|inversion Hi; congruence|right; exists ad, c', i'; exact Hi].
    + assert (Hn' : n = Some x \/ exists ad c i, In (Created b ad c i) l).
      { destruct Hn as [Hn|(ad & c & i & [Hi|Hi])]; [left; exact Hn|discriminate|right; exists ad, c, i; exact Hi]. }
      destruct msg; try (apply IH; assumption). contradiction.
Qed.

Lemma creation_admins self c v m w d fresh a :
  assigned m fresh d ->
  let log := creation_log self c v m w d in
  (In a (contracts d) -> d_attestation d <> Some a -> admin_after log a None = Some (Some (d_enterprise d)))
  /\ (d_attestation d = Some a -> admin_after log a None = Some None)
  /\ (~ In a (contracts d) -> admin_after log a None = None).
Proof.
  intros (_ & _ & Ht & Ha). cbn zeta.
  destruct d as [en ctl gov cl op tr tok mb fd at_].
  assert (Hsplit : exists l1 l2,
    creation_log self c v m w (mk_made en ctl gov cl op tr tok mb fd at_)
    = [Created en (Some self) (vi_enterprise v)
        (InitEnterprise self (fc_versioning c) None (requested_type (cm_membership m)) (vi_version v) (cm_metadata m));
       Sent (WasmUpdateAdmin en en)] ++ l1
      ++ (match cm_attestation m, at_ with
          | Some t, Some a => [Created a None (vi_attestation v) (InitAttestation t)] | _, _ => [] end) ++ l2
    /\ Forall (fun e => match e with Created _ ad _ _ => ad = Some en | Sent (WasmUpdateAdmin _ _) => False | _ => True end) l1
    /\ Forall (fun e => match e with Created _ _ _ _ => False | Sent (WasmUpdateAdmin _ _) => False | _ => True end) l2
    /\ (forall x, In x ([ctl; gov; cl; op; tr] ++ opt tok ++ [mb; fd]) <-> exists ad cd i, In (Created x ad cd i) l1)).
  { unfold creation_log. cbn [d_enterprise d_controller d_governance d_council d_outposts d_treasury d_token d_membership d_funds d_attestation].
    exists ([Created ctl (Some en) (vi_controller v)
              (InitController en (requested_type (cm_membership m)) (cm_gov m) (cm_council m) (cm_treasuries m));
            Created gov (Some en) (vi_governance v) (InitGovernance ctl);
            Created cl (Some en) (vi_multisig v) (InitMember (IMultisig en (Some (councillors m)) [] [] [ctl]));
            Created op (Some en) (vi_outposts v) (InitOutposts en);
            Created tr (Some en) (vi_treasury v)
              (InitTreasury ctl (Some (dflt [] (cm_assets m))) (Some (dflt [] (cm_nfts m))))]
           ++ membership_log c v (cm_membership m) w (mk_made en ctl gov cl op tr tok mb fd at_)
           ++ [Created fd (Some en) (vi_funds v) (InitFunds ctl en w (cm_minimum m))]),
      ([Sent (WasmExecute en (ToEnterprise (EnFinalize (wiring (mk_made en ctl gov cl op tr tok mb fd at_)))) [])]
        ++ (match cm_treasuries m with
            | None | Some [] => []
            | Some l => [Sent (BankSend op [(ULUNA, N.of_nat (length l))]);
                         Sent (WasmExecute ctl (ToController CDeployInitial) [])]
            end)).
    split; [rewrite <- !app_assoc; reflexivity|].
    assert (Hm : Forall (fun e => match e with Created _ ad _ _ => ad = Some en | Sent (WasmUpdateAdmin _ _) => False | _ => True end)
        (membership_log c v (cm_membership m) w (mk_made en ctl gov cl op tr tok mb fd at_))
      /\ (forall x, In x (opt tok ++ [mb]) <-> exists ad cd i, In (Created x ad cd i)
           (membership_log c v (cm_membership m) w (mk_made en ctl gov cl op tr tok mb fd at_)))).
    { cbn [d_token] in Ht. unfold membership_log.
      cbn [d_enterprise d_controller d_governance d_council d_outposts d_treasury d_token d_membership d_funds d_attestation].
      assert (One : forall code i x, In x [mb] <-> exists ad cd j, In (Created x ad cd j) [Created mb (Some en) code i]).
      { intros code i x. cbn [In]. split; [intros [<-|[]]; eauto 10|intros (ad & cd & j & [E|[]]); inversion E; auto]. }
      destruct (cm_membership m); destruct tok as [t|]; try discriminate Ht; cbn [opt app];
        try (split; [repeat constructor|apply One]).
      - split; [repeat constructor|]. intros x. cbn [In]. split.
        + intros [<-|[<-|[]]]; eauto 10.
        + intros (ad & cd & j & [E|[E|[]]]); inversion E; auto.
      - split; [repeat constructor|]. intros x. cbn [In]. split.
        + intros [<-|[<-|[]]]; eauto 10.
        + intros (ad & cd & j & [E|[E|[]]]); inversion E; auto. }
    destruct Hm as [Hm1 Hm2]. split; [|split].
    - apply Forall_app. split; [repeat constructor|]. apply Forall_app. split; [exact Hm1|repeat constructor].
    - constructor; [exact I|]. destruct (cm_treasuries m) as [[|? ?]|]; repeat constructor.
    - intros x. cbn [app]. split.
      + intros Hx. cbn [In] in Hx. 
        destruct Hx as [<-|[<-|[<-|[<-|[<-|Hx]]]]]; try (do 3 eexists; cbn [In]; eauto 10; fail).
        replace (opt tok ++ [mb; fd]) with ((opt tok ++ [mb]) ++ [fd]) in Hx by (rewrite <- app_assoc; reflexivity).
        apply in_app_iff in Hx. destruct Hx as [Hx|[<-|[]]].
        * apply Hm2 in Hx. destruct Hx as (ad & cd & i & Hx). exists ad, cd, i. do 5 right. apply in_app_iff. left. exact Hx.
        * do 3 eexists. do 5 right. apply in_app_iff. right. left. reflexivity.
      + intros (ad & cd & i & Hx). cbn [In] in Hx.
        destruct Hx as [E|[E|[E|[E|[E|Hx]]]]]; try (inversion E; subst; cbn [In]; auto 10; fail).
        do 5 right. apply in_app_iff in Hx. apply in_app_iff. destruct Hx as [Hx|[E|[]]].
        * assert (Hx' : In x (opt tok ++ [mb])) by (apply Hm2; eauto). apply in_app_iff in Hx'.
          destruct Hx' as [Hx'|[<-|[]]]; [left; exact Hx'|right; left; reflexivity].
        * inversion E; subst. right. right. left. reflexivity. }
  destruct Hsplit as (l1 & l2 & -> & H1 & H2 & H3).
  cbn [d_attestation d_enterprise d_token] in *. unfold contracts in *.
  cbn [d_enterprise d_controller d_governance d_council d_outposts d_treasury d_token d_membership d_funds d_attestation] in *.
  assert (K2 : forall b n, admin_after l2 b n = n).
  { intros b n. apply admin_kept. eapply Forall_impl; [|exact H2]. intros [?|[]]; tauto. }
  set (A := match cm_attestation m, at_ with Some t, Some a => [Created a None (vi_attestation v) (InitAttestation t)] | _, _ => [] end).
  assert (KA : forall b n, at_ <> Some b -> admin_after A b n = n).
  { intros b n Hb. unfold A. destruct (cm_attestation m); destruct at_ as [x|]; try reflexivity. cbn [admin_after].
    destruct (N.eqb_spec x b); [congruence|reflexivity]. }
  rewrite !admin_after_app. split; [|split].
  - intros Hin Hat. rewrite K2, KA by exact Hat. cbn [admin_after].
    destruct (N.eqb_spec en a) as [->|Hne].
    + apply admin_all; [exact H1|left; reflexivity].
    + apply admin_all; [exact H1|]. right. apply H3. cbn [app] in Hin. destruct Hin as [E|Hin]; [contradiction|].
      cbn [app]. cbn [In] in *. destruct Hin as [Hin|[Hin|[Hin|[Hin|[Hin|Hin]]]]]; auto 10.
      do 5 right. change (In a (opt tok ++ [mb; fd] ++ opt at_)) in Hin. rewrite app_assoc in Hin. apply in_app_iff in Hin. destruct Hin as [Hin|Hin]; [exact Hin|].
      destruct at_ as [x|]; [|destruct Hin]. destruct Hin as [<-|[]]. contradiction.
  - intros ->. rewrite K2. unfold A. destruct (cm_attestation m); [|discriminate]. cbn [admin_after]. rewrite N.eqb_refl. reflexivity.
  - intros Hout. rewrite K2, KA.
    2:{ intros ->. apply Hout. rewrite !in_app_iff. cbn [In opt]. auto 10. }
    cbn [admin_after]. destruct (N.eqb_spec en a) as [->|Hne]; [exfalso; apply Hout; left; reflexivity|].
    apply admin_kept. rewrite Forall_forall in *. intros e He. specialize (H1 e He). destruct e as [b ad cd i|msg].
    + intros ->. apply Hout. right. assert (X : exists ad cd i, In (Created a ad cd i) l1) by eauto.
      apply H3 in X. cbn [app] in *. cbn [In] in *. destruct X as [X|[X|[X|[X|[X|X]]]]]; auto 10.
      do 5 right. apply in_app_iff in X. apply in_app_iff. destruct X as [X|[X|[X|[]]]]; [left; exact X|right; left; exact X|right; right; left; exact X].
    + destruct msg; try exact I. contradiction.
Qed.

(** ** How the new contracts are bound together *)

Lemma creation_bound self c v m w d a i :
  born (creation_log self c v m w d) a i -> bound_to self (d_enterprise d) (d_controller d) i.
Proof.
  intros (ad & cd & H). unfold creation_log in H.
  apply in_app_iff in H. destruct H as [H|H].
  { cbn [In] in H. repeat (destruct H as [H|H]; [inversion H; subst; cbn [bound_to]; auto|]). contradiction. }
  apply in_app_iff in H. destruct H as [H|H].
  { unfold membership_log in H. destruct (cm_membership m); try (destruct (d_token d));
      cbn [In] in H; repeat (destruct H as [H|H]; [inversion H; subst; cbn [bound_to]; auto|]); contradiction. }
  apply in_app_iff in H. destruct H as [H|H].
  { cbn [In] in H. destruct H as [H|[]]. inversion H; subst. cbn [bound_to]. auto. }
  apply in_app_iff in H. destruct H as [H|H].
  { destruct (cm_attestation m); [destruct (d_attestation d)|]; try contradiction. destruct H as [H|[]]. inversion H; subst. exact I. }
  exfalso. apply in_app_iff in H. destruct H as [H|H].
  - destruct H as [H|[]]. discriminate.
  - destruct (cm_treasuries m) as [[|? ?]|]; try contradiction. cbn [In] in H. destruct H as [H|[H|[]]]; discriminate.
Qed.

Lemma save_hooks_one m h m' : save_hooks m [h] = Ok m' -> m' = with_hooks m (oset (m_hooks m) h tt).
Proof.
  unfold save_hooks. cbn [fold_res]. intros H. apply bind_ok in H. destruct H as (m1 & H1 & H).
  apply bind_ok in H1. destruct H1 as (h1 & H1 & E). apply addr_validate_ok in H1. destruct H1 as [<- _].
  inversion E; subst. inversion H; reflexivity.
Qed.

Lemma only_hook h k : ohas (oset oempty h tt) k = (k =? h).
Proof. unfold ohas. rewrite oget_oset, oget_empty. rewrite (N.eqb_sym h k). destruct (k =? h); reflexivity. Qed.

Lemma fold_weights_hooks l : forall (mt mt' : members * N),
  fold_res (fun (mt : members * N) (uw : N * N) =>
    let '(m, total) := mt in
    t1 <- uint_sub total (member_weight m (fst uw)) ;;
    t2 <- uint_add t1 (snd uw) ;;
    Ok (set_member_weight m (fst uw) (snd uw), t2)) mt l = Ok mt' ->
  m_hooks (fst mt') = m_hooks (fst mt) /\ m_enterprise (fst mt') = m_enterprise (fst mt)
  /\ m_weights (fst mt') = fold_left (fun m (uw : N * N) => oset m (fst uw) (snd uw)) l (m_weights (fst mt)).
Proof.
  induction l as [|[u w] l IH]; intros mt mt' H; cbn [fold_res] in H.
  - inversion H; subst. repeat split.
  - apply bind_ok in H. destruct H as (mt1 & H1 & H). destruct mt as [m t]. binv H1. inversion H1; subst.
    apply IH in H. cbn [fst snd set_member_weight with_member_weights m_hooks m_enterprise m_weights fold_left] in *. exact H.
Qed.

Lemma instantiated e i st en ctl : bound_to 0 en ctl (InitMember i) -> member_instantiate e i = Ok st ->
  m_enterprise (members_of st) = en /\ (forall h, ohas (m_hooks (members_of st)) h = (h =? ctl))
  /\ (forall u, oget (m_weights (members_of st)) u
                = match i with IMultisig _ (Some l) _ _ _ => last_weight l u None | _ => None end).
Proof.
  intros Hb H. destruct i as [en0 t p bh bs hs|en0 dn p hs|en0 c p bh bs hs|en0 ini bh bs hs]; cbn [bound_to member_instantiate] in *.
  - destruct Hb as (-> & -> & -> & ->). apply bind_ok in H. destruct H as (s & H & E). inversion E; subst. clear E.
    unfold token_instantiate, members_new in H. allb.
    match goal with H : save_hooks _ _ = Ok _ |- _ => apply save_hooks_one in H; subst end.
    split; [reflexivity|]. split; [intros h; apply only_hook|]. intros u. apply oget_empty.
  - destruct Hb as (-> & ->). apply bind_ok in H. destruct H as (s & H & E). inversion E; subst. clear E.
    unfold denom_instantiate, members_new in H. allb.
    match goal with H : save_hooks _ _ = Ok _ |- _ => apply save_hooks_one in H; subst end.
    split; [reflexivity|]. split; [intros h; apply only_hook|]. intros u. apply oget_empty.
  - destruct Hb as (-> & -> & -> & ->). apply bind_ok in H. destruct H as (s & H & E). inversion E; subst. clear E.
    unfold nft_instantiate, members_new in H. allb.
    match goal with H : save_hooks _ _ = Ok _ |- _ => apply save_hooks_one in H; subst end.
    split; [reflexivity|]. split; [intros h; apply only_hook|]. intros u. apply oget_empty.
  - destruct Hb as (-> & -> & -> & ->). apply bind_ok in H. destruct H as (s & H & E). inversion E; subst. clear E.
    unfold multisig_instantiate, members_new in H.
    apply bind_ok in H. destruct H as (m0 & Hm0 & H). apply bind_ok in Hm0. destruct Hm0 as (en1 & Hen & E).
    apply addr_validate_ok in Hen. destruct Hen as [<- _]. inversion E; subst. clear E.
    apply bind_ok in H. destruct H as (m1 & H1 & H). apply save_hooks_one in H. subst s. cbn [members_of].
    destruct ini as [l|].
    + apply bind_ok in H1. destruct H1 as (l' & Hl & H1). apply bind_ok in H1. destruct H1 as ([m2 t2] & H2 & H1).
      inversion H1; subst. clear H1. apply fold_weights_hooks in H2. cbn [fst] in H2. destruct H2 as (A & B & C).
      assert (El : l' = l).
      { unfold dedup_user_weights in Hl. apply bind_ok in Hl. destruct Hl as (l2 & Hl2 & Hl). apply bind_ok in Hl.
        destruct Hl as (u & _ & Hl). inversion Hl; subst. clear Hl. clear -Hl2.
        revert l' Hl2. induction l as [|[u w] l IH]; intros l' H; cbn [map_res] in H; [inversion H; reflexivity|].
        apply bind_ok in H. destruct H as (x & Hx & H). apply bind_ok in Hx. destruct Hx as (u' & Hu & Hx).
        apply addr_validate_ok in Hu. destruct Hu as [<- _]. inversion Hx; subst. clear Hx.
        apply bind_ok in H. destruct H as (r & Hr & H). inversion H; subst. rewrite (IH r Hr). reflexivity. }
      subst l'. cbn [with_hooks save_total_weight m_enterprise m_hooks m_weights]. rewrite A, B, C. cbn [m_enterprise m_hooks m_weights save_checkpoints].
      split; [reflexivity|]. split; [intros h; apply only_hook|]. intros u. rewrite fold_oset_last, oget_empty. reflexivity.
    + inversion H1; subst. split; [reflexivity|]. split; [intros h; apply only_hook|]. intros u. apply oget_empty.
Qed.

(** Both memberships report to the controller and to no one else. *)
Lemma creation_hooks self c v m w d a i e st :
  born (creation_log self c v m w d) a (InitMember i) -> member_instantiate e i = Ok st ->
  m_enterprise (members_of st) = d_enterprise d /\ forall h, ohas (m_hooks (members_of st)) h = (h =? d_controller d).
Proof.
  intros Hb H. apply creation_bound in Hb.
  assert (Hb' : bound_to 0 (d_enterprise d) (d_controller d) (InitMember i)) by (destruct i; exact Hb).
  destruct (instantiated e i st _ _ Hb' H) as (A & B & _). split; assumption.
Qed.

(** Governance, treasury and distributor obey the controller. *)
Lemma creation_obey self c v m w d a i :
  born (creation_log self c v m w d) a i ->
  match i with
  | InitGovernance admin => g_admin (gov_init admin) = d_controller d
  | InitTreasury admin assets nfts => forall t, treasury_instantiate admin assets nfts = Ok t -> tr_admin t = d_controller d
  | InitFunds admin en l mn =>
      forall f, funds_instantiate admin en mn l = Ok f -> f_admin f = d_controller d /\ f_enterprise f = d_enterprise d
  | _ => True
  end.
Proof.
  intros Hb. apply creation_bound in Hb. destruct i; cbn [bound_to] in Hb; try exact I.
  - exact Hb.
  - intros t Ht. apply TreasuryFacts.instantiate_ok in Ht. destruct Ht as (-> & _). exact Hb.
  - intros f Hf. apply FundsProofs.instantiate_ok in Hf. destruct Hf as (_ & -> & -> & _). exact Hb.
Qed.

(** The root contract, instantiated by the factory, takes the wiring from it. *)
Lemma creation_wired o s sender m v fresh s' log :
  fa_tx s (mk_fa_call o sender (FaCreate m v) fresh) = Ok (s', log) ->
  exists d, assigned m fresh d
    /\ In (Sent (WasmExecute (d_enterprise d) (ToEnterprise (EnFinalize (wiring d))) [])) log
    /\ (forall a c msg f, In (Sent (WasmExecute a (ToEnterprise msg) f)) log -> a = d_enterprise d /\ msg = EnFinalize c -> c = wiring d)
    /\ forall e f r cd t ver md x eo, born log (d_enterprise d) (InitEnterprise f r cd t ver md) ->
         enterprise_instantiate e f r cd t ver md = Ok x -> eo_creator eo = fo_self o ->
         exists x', enterprise_execute eo x (fo_self o) (EnFinalize (wiring d)) = Ok (x', [])
           /\ en_components x' = Some (wiring d) /\ en_finalized x' = true
           /\ en_type x' = requested_type (cm_membership m).
Proof.
  intros H. apply creation_exact in H. destruct H as (vi & w & d & H1 & H2 & H3 & _ & ->). exists d. split; [exact H3|].
  split; [unfold creation_log; rewrite !in_app_iff; cbn [In]; auto 10|]. split.
  { intros a c msg f Hin [-> ->]. unfold creation_log in Hin. apply in_app_iff in Hin. destruct Hin as [Hin|Hin].
    { cbn [In] in Hin. repeat (destruct Hin as [Hin|Hin]; [discriminate|]). contradiction. }
    apply in_app_iff in Hin. destruct Hin as [Hin|Hin].
    { unfold membership_log in Hin. destruct (cm_membership m); try destruct (d_token d); cbn [In] in Hin;
        repeat (destruct Hin as [Hin|Hin]; [discriminate|]); contradiction. }
    apply in_app_iff in Hin. destruct Hin as [[Hin|[]]|Hin]; [discriminate|].
    apply in_app_iff in Hin. destruct Hin as [Hin|Hin].
    { destruct (cm_attestation m); [destruct (d_attestation d)|]; try contradiction. destruct Hin as [Hin|[]]. discriminate. }
    apply in_app_iff in Hin. destruct Hin as [[Hin|[]]|Hin]; [inversion Hin; reflexivity|].
    destruct (cm_treasuries m) as [[|? ?]|]; try contradiction. cbn [In] in Hin. destruct Hin as [Hin|[Hin|[]]]; discriminate. }
  intros e f r cd t ver md x eo Hb Hx Hc.
  assert (Hi : (f, r, cd, t, ver, md) = (fo_self o, fc_versioning (fa_config s), None, requested_type (cm_membership m), vi_version vi, cm_metadata m)).
  { destruct Hb as (ad & code & Hb). unfold creation_log in Hb. apply in_app_iff in Hb. destruct Hb as [Hin|Hin].
    { cbn [In] in Hin. destruct Hin as [Hin|Hin]; [inversion Hin; reflexivity|].
      repeat (destruct Hin as [Hin|Hin]; [discriminate|]). contradiction. }
    exfalso. apply in_app_iff in Hin. destruct Hin as [Hin|Hin].
    { unfold membership_log in Hin. destruct (cm_membership m); try destruct (d_token d); cbn [In] in Hin;
        repeat (destruct Hin as [Hin|Hin]; [discriminate|]); contradiction. }
    apply in_app_iff in Hin. destruct Hin as [[Hin|[]]|Hin]; [discriminate|].
    apply in_app_iff in Hin. destruct Hin as [Hin|Hin].
    { destruct (cm_attestation m); [destruct (d_attestation d)|]; try contradiction. destruct Hin as [Hin|[]]. discriminate. }
    apply in_app_iff in Hin. destruct Hin as [[Hin|[]]|Hin]; [discriminate|].
    destruct (cm_treasuries m) as [[|? ?]|]; try contradiction. cbn [In] in Hin. destruct Hin as [Hin|[Hin|[]]]; discriminate. }
  inversion Hi; subst. apply en_instantiate_ok in Hx. destruct Hx as (Hs & _ & ->).
  eexists. split.
  - apply finalize_iff. split; [reflexivity|]. split; [symmetry; exact Hc|]. split; [exact Hs|]. split; [|split; reflexivity].
    destruct H3 as (_ & Hn & _). unfold valid_components, wiring.
    cbn [c_governance c_controller c_treasury c_outposts c_funds c_membership c_council c_attestation].
    unfold contracts in Hn. repeat split; try (apply Hn; rewrite !in_app_iff; cbn [In]; auto 10).
    intros E. apply (Hn 0); [|reflexivity]. rewrite E, !in_app_iff. cbn [In opt]. auto 10.
  - repeat split.
Qed.

(** ** The other calls *)

Lemma update_config_iff s o sender a v c n fresh s' log :
  fa_tx s (mk_fa_call o sender (FaUpdateConfig a v c n) fresh) = Ok (s', log) <->
  sender = fc_admin (fa_config s) /\ a <> Some 0 /\ v <> Some 0 /\ log = []
  /\ s' = mk_factory (mk_fa_conf (dflt (fc_admin (fa_config s)) a) (dflt (fc_versioning (fa_config s)) v)
                        (dflt (fc_cw20 (fa_config s)) c) (dflt (fc_cw721 (fa_config s)) n))
            (fa_daos s) (fa_counter s) (fa_assets s) (fa_nfts s) (fa_code_ids s) (fa_pending s).
Proof.
  unfold fa_tx. cbn [fl_oracle fl_sender fl_msg fl_fresh factory_execute]. unfold fa_update_config. split.
  - intros H. apply bind_ok in H. destruct H as ([s1 subs] & H & Hd).
    apply bind_ok in H. destruct H as (u & Hu & H). apply guard_ok in Hu. apply N.eqb_eq in Hu.
    apply bind_ok in H. destruct H as (a1 & Ha & H). apply bind_ok in H. destruct H as (v1 & Hv & H).
    inversion H; subst. rewrite deliver_nil in Hd. inversion Hd; subst. split; [reflexivity|].
    assert (Ea : a <> Some 0 /\ a1 = dflt (fc_admin (fa_config s)) a).
    { destruct a; [apply addr_validate_ok in Ha; destruct Ha as [<- ?]; split; [congruence|reflexivity]|inversion Ha; split; [discriminate|reflexivity]]. }
    assert (Ev : v <> Some 0 /\ v1 = dflt (fc_versioning (fa_config s)) v).
    { destruct v; [apply addr_validate_ok in Hv; destruct Hv as [<- ?]; split; [congruence|reflexivity]|inversion Hv; split; [discriminate|reflexivity]]. }
    destruct Ea as [? ->], Ev as [? ->]. auto.
  - intros (-> & Ha & Hv & -> & ->). rewrite N.eqb_refl. cbn [guard bind].
    assert (Ea : (match a with Some a => addr_validate a | None => Ok (fc_admin (fa_config s)) end) = Ok (dflt (fc_admin (fa_config s)) a)).
    { destruct a as [x|]; [|reflexivity]. unfold addr_validate. destruct (N.eqb_spec x 0); [congruence|reflexivity]. }
    assert (Ev : (match v with Some a => addr_validate a | None => Ok (fc_versioning (fa_config s)) end) = Ok (dflt (fc_versioning (fa_config s)) v)).
    { destruct v as [x|]; [|reflexivity]. unfold addr_validate. destruct (N.eqb_spec x 0); [congruence|reflexivity]. }
    rewrite Ea. cbn [bind]. rewrite Ev. cbn [bind]. rewrite deliver_nil. reflexivity.
Qed.

Lemma finalize_refused s o sender fresh : quiet s ->
  exists e, fa_tx s (mk_fa_call o sender FaFinalize fresh) = Err e.
Proof.
  intros Hq. unfold fa_tx. cbn [fl_oracle fl_sender fl_msg fl_fresh factory_execute]. unfold finalize_dao, fa_load.
  destruct (sender =? fo_self o); cbn [guard bind]; [|eauto]. destruct Hq as [->| ->]; cbn [ok_or bind require]; [eauto|].
  cbn. eauto.
Qed.

(** ** The register of DAOs *)

Lemma creation_treasury self c v m w d : treasuries_in (creation_log self c v m w d) = [d_treasury d].
Proof.
  unfold creation_log, treasuries_in. rewrite !flat_map_app. cbn [flat_map app].
  assert (E1 : flat_map (fun e => match e with Created a _ _ (InitTreasury _ _ _) => [a] | _ => [] end)
                 (membership_log c v (cm_membership m) w d) = []).
  { unfold membership_log. destruct (cm_membership m); try destruct (d_token d); reflexivity. }
  assert (E2 : flat_map (fun e => match e with Created a _ _ (InitTreasury _ _ _) => [a] | _ => [] end)
      (match cm_attestation m, d_attestation d with
      | Some t, Some a => [Created a None (vi_attestation v) (InitAttestation t)] | _, _ => [] end) = []).
  { destruct (cm_attestation m); [destruct (d_attestation d)|]; reflexivity. }
  assert (E3 : flat_map (fun e => match e with Created a _ _ (InitTreasury _ _ _) => [a] | _ => [] end)
      (match cm_treasuries m with
      | None | Some [] => []
      | Some l => [Sent (BankSend (d_outposts d) [(ULUNA, N.of_nat (length l))]);
                   Sent (WasmExecute (d_controller d) (ToController CDeployInitial) [])]
      end) = []).
  { destruct (cm_treasuries m) as [[|? ?]|]; reflexivity. }
  rewrite E1, E2, E3. reflexivity.
Qed.

Lemma instantiate_fields c a n s : factory_instantiate c a n = Ok s ->
  fa_config s = c /\ fa_daos s = oempty /\ fa_counter s = 1 /\ fa_assets s = dflt [] a /\ fa_nfts s = dflt [] n
  /\ fa_code_ids s = oempty /\ fa_pending s = None.
Proof.
  unfold factory_instantiate. intros H. apply bind_ok in H. destruct H as (a1 & Ha & H).
  apply bind_ok in H. destruct H as (n1 & Hn & H). inversion H; subst. clear H. cbn.
  assert (Ea : a1 = dflt [] a).
  { revert Ha. generalize (dflt [] a). intros l. revert a1. induction l as [|x l IH]; intros a1 H; cbn [map_res] in H.
    - inversion H; reflexivity.
    - apply bind_ok in H. destruct H as (y & Hy & H). apply bind_ok in H. destruct H as (r & Hr & H). inversion H; subst.
      rewrite (IH r Hr). f_equal. destruct x; cbn [check_asset] in Hy.
      + inversion Hy; reflexivity.
      + apply bind_ok in Hy. destruct Hy as (z & Hz & Hy). apply addr_validate_ok in Hz. destruct Hz as [<- _]. inversion Hy; reflexivity.
      + apply bind_ok in Hy. destruct Hy as (z & Hz & Hy). apply addr_validate_ok in Hz. destruct Hz as [<- _]. inversion Hy; reflexivity. }
  assert (En : n1 = dflt [] n).
  { revert Hn. generalize (dflt [] n). intros l. revert n1. induction l as [|x l IH]; intros n1 H; cbn [map_res] in H.
    - inversion H; reflexivity.
    - apply bind_ok in H. destruct H as (y & Hy & H). apply bind_ok in H. destruct H as (r & Hr & H). inversion H; subst.
      rewrite (IH r Hr). f_equal. apply addr_validate_ok in Hy. destruct Hy as [<- _]. reflexivity. }
  subst. repeat split.
Qed.

Lemma numbered_In l : forall n k a, In (k, a) (numbered n l) -> n <= k /\ k < n + N.of_nat (length l).
Proof.
  induction l as [|x l IH]; intros n k a H; cbn [numbered In length] in *; [contradiction|].
  destruct H as [H|H]; [inversion H; subst; lia|]. apply IH in H. lia.
Qed.
Lemma numbered_app l1 : forall n l2, numbered n (l1 ++ l2) = numbered n l1 ++ numbered (n + N.of_nat (length l1)) l2.
Proof.
  induction l1 as [|x l1 IH]; intros n l2; cbn [numbered app length].
  - rewrite N.add_0_r. reflexivity.
  - rewrite IH. do 2 f_equal. f_equal. lia.
Qed.

(** One call: either the register grows by one DAO or it stays as it is. *)
Lemma tx_register s c s' log : quiet s -> fa_tx s c = Ok (s', log) ->
  quiet s' /\ fa_assets s' = fa_assets s /\ fa_nfts s' = fa_nfts s /\ fa_code_ids s' = fa_code_ids s
  /\ ((exists m v, fl_msg c = FaCreate m v) /\ (exists t, treasuries_in log = [t] /\
         fa_daos s' = oset (fa_daos s) (fa_counter s) t /\ fa_counter s' = (fa_counter s + 1) mod 2 ^ 64)
      \/ treasuries_in log = [] /\ fa_daos s' = fa_daos s /\ fa_counter s' = fa_counter s).
Proof.
  intros Hq H. destruct c as [o sender msg fresh]. destruct msg as [m v|a v c n|].
  - apply creation_exact in H. destruct H as (vi & w & d & _ & _ & _ & Hr & ->).
    destruct Hr as (R1 & R2 & R3 & R4 & R5 & R6 & R7). split; [right; exact R3|]. split; [exact R5|]. split; [exact R6|]. split; [exact R7|].
    left. split; [eexists; eexists; reflexivity|]. exists (d_treasury d). rewrite creation_treasury. auto.
  - apply update_config_iff in H. destruct H as (_ & _ & _ & -> & ->). cbn. split; [exact Hq|]. do 3 (split; [reflexivity|]). right. auto.
  - destruct (finalize_refused s o sender fresh Hq) as [e He]. rewrite He in H. discriminate.
Qed.

Lemma run_register l : forall s before, quiet s ->
  elems (fa_daos s) = numbered 1 before -> fa_counter s = 1 + N.of_nat (length before) ->
  1 + N.of_nat (length (before ++ treasuries_made s l)) < 2 ^ 64 ->
  let s' := fa_run s l in
  quiet s' /\ elems (fa_daos s') = numbered 1 (before ++ treasuries_made s l)
  /\ fa_counter s' = 1 + N.of_nat (length (before ++ treasuries_made s l)).
Proof.
  induction l as [|c l IH]; intros s before Hq He Hc Hb; cbn [treasuries_made fa_run fold_left] in *.
  - rewrite app_nil_r. auto.
  - unfold fa_step at 2. unfold fa_step at 3. unfold fa_step at 4.
    destruct (fa_tx s c) as [[s1 log]|e] eqn:E.
    + destruct (tx_register s c s1 log Hq E) as (Hq1 & _ & _ & _ & [(_ & t & Ht & Hd & Hn)|(Ht & Hd & Hn)]); rewrite Ht in *.
      * rewrite app_assoc in Hb |- *. apply IH; auto.
        -- rewrite Hd. rewrite elems_oset_last.
           ++ rewrite numbered_app, He. do 2 f_equal. cbn [numbered]. rewrite Hc. reflexivity.
           ++ intros k v Hin. rewrite He in Hin. apply numbered_In in Hin. lia.
        -- rewrite Hn, app_length. cbn [length]. rewrite N.mod_small; [lia|].
           rewrite !app_length in Hb. cbn [length] in Hb. lia.
      * cbn [app] in *. apply IH; auto; [rewrite Hd; exact He|rewrite Hn; exact Hc].
    + apply IH; auto.
Qed.

Lemma registry_exact c a n s0 l : factory_instantiate c a n = Ok s0 ->
  N.of_nat (length (treasuries_made s0 l)) < 2 ^ 64 - 1 ->
  elems (fa_daos (fa_run s0 l)) = numbered 1 (treasuries_made s0 l)
  /\ fa_counter (fa_run s0 l) = 1 + N.of_nat (length (treasuries_made s0 l)).
Proof.
  intros Hi Hb. apply instantiate_fields in Hi. destruct Hi as (_ & Hd & Hc & _ & _ & _ & Hp).
  pose proof (run_register l s0 [] (or_introl Hp)) as H. cbn [app length] in H. rewrite Hd, Hc in H.
  specialize (H eq_refl eq_refl). destruct H as (_ & H); [lia|exact H].
Qed.

Lemma run_quiet l : forall s, quiet s -> quiet (fa_run s l).
Proof.
  induction l as [|c l IH]; intros s Hq; cbn [fa_run fold_left]; [exact Hq|]. apply IH. unfold fa_step.
  destruct (fa_tx s c) as [[s1 log]|e] eqn:E; [|exact Hq]. exact (proj1 (tx_register s c s1 log Hq E)).
Qed.

Lemma finalize_never c a n s0 l o sender fresh : factory_instantiate c a n = Ok s0 ->
  exists e, fa_tx (fa_run s0 l) (mk_fa_call o sender FaFinalize fresh) = Err e.
Proof.
  intros Hi. apply finalize_refused, run_quiet. left. apply instantiate_fields in Hi. tauto.
Qed.

(** The global whitelists never change, no code id is ever recorded; the configuration is the admin's. *)
Lemma fixed_lists c a n s0 l : factory_instantiate c a n = Ok s0 ->
  fa_assets (fa_run s0 l) = dflt [] a /\ fa_nfts (fa_run s0 l) = dflt [] n /\ fa_code_ids (fa_run s0 l) = oempty.
Proof.
  intros Hi. pose proof (instantiate_fields _ _ _ _ Hi) as (_ & _ & _ & Ha & Hn & Hc & Hp).
  rewrite <- Ha, <- Hn, <- Hc. clear Ha Hn Hc Hi. assert (Hq : quiet s0) by (left; exact Hp). clear Hp.
  revert s0 Hq. induction l as [|x l IH]; intros s Hq; cbn [fa_run fold_left]; [auto|]. unfold fa_step at 2 4 6.
  destruct (fa_tx s x) as [[s1 log]|e] eqn:E; [|apply IH; exact Hq].
  destruct (tx_register s x s1 log Hq E) as (Hq1 & A & B & C & _). rewrite <- A, <- B, <- C. apply IH. exact Hq1.
Qed.

Lemma config_admin s c s' log : quiet s -> fa_tx s c = Ok (s', log) -> fa_config s' <> fa_config s ->
  fl_sender c = fc_admin (fa_config s) /\ exists a v x n, fl_msg c = FaUpdateConfig a v x n.
Proof.
  intros Hq H Hne. destruct c as [o sender msg fresh]. destruct msg as [m v|a v c n|].
  - exfalso. apply creation_exact in H. destruct H as (vi & w & d & _ & _ & _ & Hr & ->). apply Hne. apply Hr.
  - apply update_config_iff in H. split; [apply H|]. exists a, v, c, n. reflexivity.
  - destruct (finalize_refused s o sender fresh Hq) as [e He]. rewrite He in H. discriminate.
Qed.

(** ** Listings *)

Lemma dao_pages s :
  forall limit, limit <> Some 0 ->
    let page := fun start => Ok (query_all_daos s (option_map fst start) limit) in
    pages_of (elems (fa_daos s)) (N.to_nat (N.min (dflt 50 limit) 100)) page /\
    forall fuel, (length (elems (fa_daos s)) < fuel)%nat -> read_pages fuel page None = Ok (elems (fa_daos s)).
Proof.
  intros limit Hl page.
  assert (Hp : pages_of (elems (fa_daos s)) (N.to_nat (N.min (dflt 50 limit) 100)) page).
  { split.
    - reflexivity.
    - intros i [ch t] Hn. unfold page, query_all_daos, take. cbn [option_map fst].
      rewrite (orange_skip _ i _ t Hn). reflexivity. }
  split; [exact Hp|]. intros fuel Hf.
  apply (read_all _ (N.to_nat (N.min (dflt 50 limit) 100)) _ ltac:(destruct limit as [n|]; cbn [dflt]; [|vm_compute; lia]; assert (n <> 0) by congruence; lia) Hp fuel 0%nat).
  - lia.
  - cbn [skipn]. apply Hp.
Qed.

(** Since no code id is recorded, only the treasury code of version 1.0.0 counts as an enterprise code. *)
Lemma code_ids c a n s0 l : factory_instantiate c a n = Ok s0 ->
  let s := fa_run s0 l in
  (forall start limit, query_code_ids s start limit = [])
  /\ forall o code, query_is_code_id o s code
       = match fo_version o (fc_versioning (fa_config s)) (version 1 0 0) with
         | Ok v => Ok (vi_treasury v =? code)
         | Err e => Err e
         end.
Proof.
  intros Hi s. pose proof (fixed_lists _ _ _ _ l Hi) as (_ & _ & Hc). fold s in Hc. split.
  - intros start limit. unfold query_code_ids. rewrite Hc. unfold orange, take. destruct start; cbn [elems oempty filter]; rewrite ?firstn_nil; reflexivity.
  - intros o code. unfold query_is_code_id. rewrite Hc. unfold ohas. rewrite oget_empty. cbn [is_some].
    destruct (fo_version o (fc_versioning (fa_config s)) (version 1 0 0)); reflexivity.
Qed.

(** ** C48: the first reward weights *)

Lemma born_log self c v m w d a i : born (creation_log self c v m w d) a i ->
  (a = d_enterprise d /\ i = InitEnterprise self (fc_versioning c) None (requested_type (cm_membership m)) (vi_version v) (cm_metadata m))
  \/ (a = d_controller d /\ i = InitController (d_enterprise d) (requested_type (cm_membership m)) (cm_gov m) (cm_council m) (cm_treasuries m))
  \/ (a = d_governance d /\ i = InitGovernance (d_controller d))
  \/ (a = d_council d /\ i = InitMember (IMultisig (d_enterprise d) (Some (councillors m)) [] [] [d_controller d]))
  \/ (a = d_outposts d /\ i = InitOutposts (d_enterprise d))
  \/ (a = d_treasury d /\ i = InitTreasury (d_controller d) (Some (dflt [] (cm_assets m))) (Some (dflt [] (cm_nfts m))))
  \/ born (membership_log c v (cm_membership m) w d) a i
  \/ (a = d_funds d /\ i = InitFunds (d_controller d) (d_enterprise d) w (cm_minimum m))
  \/ (d_attestation d = Some a /\ exists t, i = InitAttestation t).
Proof.
  intros (ad & cd & H). unfold creation_log in H.
  apply in_app_iff in H. destruct H as [H|H].
  { cbn [In] in H. repeat (destruct H as [H|H]; [inversion H; subst; auto 20|]). contradiction. }
  apply in_app_iff in H. destruct H as [H|H].
  { do 6 right. left. exists ad, cd. exact H. }
  apply in_app_iff in H. destruct H as [H|H].
  { cbn [In] in H. destruct H as [H|[]]. inversion H; subst. auto 20. }
  apply in_app_iff in H. destruct H as [H|H].
  { do 8 right. destruct (cm_attestation m) as [t|]; [destruct (d_attestation d)|]; try contradiction. destruct H as [H|[]]. inversion H; subst.
    split; [reflexivity|eauto]. }
  exfalso. apply in_app_iff in H. destruct H as [H|H].
  - destruct H as [H|[]]. discriminate.
  - destruct (cm_treasuries m) as [[|? ?]|]; try contradiction. cbn [In] in H. destruct H as [H|[H|[]]]; discriminate.
Qed.

(** The membership contract, and the other contract created for it. *)
Lemma membership_born c v m w d a i : born (membership_log c v m w d) a (InitMember i) ->
  a = d_membership d /\ kind_of i = requested_type m
  /\ match i with
     | IMultisig _ l _ _ _ => l = Some w
     | _ => True
     end.
Proof.
  intros (ad & cd & H). unfold membership_log in H. destruct m; try destruct (d_token d);
    cbn [In] in H; repeat (destruct H as [H|H]; [inversion H; subst; auto|]); try contradiction.
Qed.

Lemma NoDup_front {A} (l r : list A) : NoDup (l ++ r) -> NoDup l.
Proof.
  induction l as [|x l IH]; intros H; [constructor|]. inversion H; subst. constructor; [|auto].
  intros Hin. match goal with H : ~ In x _ |- _ => apply H end. apply in_app_iff. auto.
Qed.

Lemma fresh_contracts m fresh d : assigned m fresh d -> NoDup fresh -> NoDup (contracts d).
Proof. intros ((rest & ->) & _) H. exact (NoDup_front _ _ H). Qed.

Lemma council_membership d : NoDup (contracts d) -> d_membership d <> d_council d.
Proof.
  unfold contracts. intros H E. cbn [app] in H.
  do 3 (inversion H as [|? ? _ H']; subst; clear H; rename H' into H).
  inversion H as [|? ? Hn _]; subst. apply Hn. rewrite <- E. right. right. apply in_app_iff. right. left. reflexivity.
Qed.

Lemma councillors_weight m u :
  last_weight (councillors m) u None
  = if existsb (N.eqb u) (match cm_council m with Some c => cs_members c | None => [] end) then Some 1 else None.
Proof.
  unfold councillors. generalize (match cm_council m with Some c => cs_members c | None => [] end). intros l.
  assert (G : forall acc, last_weight (map (fun u => (u, 1)) l) u acc = if existsb (N.eqb u) l then Some 1 else acc).
  { induction l as [|x l IH]; intros acc; [reflexivity|]. cbn [map existsb]. unfold last_weight in *. cbn [fold_left fst snd].
    rewrite IH. rewrite (N.eqb_sym u x). destruct (x =? u); cbn [orb]; [|reflexivity]. destruct (existsb (N.eqb u) l); reflexivity. }
  apply G.
Qed.

Lemma accepted_weights o m w : membership_accepted o m w -> requested_type (cm_membership m) <> DaoMultisig -> w = councillors m.
Proof. unfold membership_accepted. destruct (cm_membership m); cbn [requested_type]; intros H Hn; try tauto; congruence. Qed.

Lemma weights_at_birth o self c vi m w d : membership_accepted o m w -> NoDup (contracts d) ->
    forall i e st admin en l mn f,
      born (creation_log self c vi m w d) (d_membership d) (InitMember i) -> member_instantiate e i = Ok st ->
      born (creation_log self c vi m w d) (d_funds d) (InitFunds admin en l mn) -> funds_instantiate admin en mn l = Ok f ->
      kind_of i = requested_type (cm_membership m) /\
      match requested_type (cm_membership m) with
      | DaoMultisig => forall u, oget (f_weights f) u = oget (m_weights (members_of st)) u
      | _ => forall u, oget (m_weights (members_of st)) u = None
               /\ oget (f_weights f) u
                  = if existsb (N.eqb u) (match cm_council m with Some c => cs_members c | None => [] end)
                    then Some 1 else None
      end.
Proof.
  intros Hw Hn.
  intros i e st admin en l mn f Hb Hi Hb2 Hi2.
  assert (El : l = w).
  { apply born_log in Hb2. destruct Hb2 as [[_ E]|[[_ E]|[[_ E]|[[_ E]|[[_ E]|[[_ E]|[Hb2|[[_ E]|[_ [t E]]]]]]]]]];
      try discriminate; [|inversion E; reflexivity].
    exfalso. destruct Hb2 as (ad & cd & Hb2). unfold membership_log in Hb2. destruct (cm_membership m); try destruct (d_token d);
      cbn [In] in Hb2; repeat (destruct Hb2 as [Hb2|Hb2]; [discriminate|]); contradiction. }
  subst l. pose proof (creation_bound _ _ _ _ _ _ _ _ Hb) as Hbd.
  assert (Hbd' : bound_to 0 (d_enterprise d) (d_controller d) (InitMember i)) by (destruct i; exact Hbd).
  destruct (instantiated e i st _ _ Hbd' Hi) as (_ & _ & Hst).
  apply born_log in Hb. destruct Hb as [[_ E]|[[_ E]|[[_ E]|[[E _]|[[_ E]|[[_ E]|[Hb|[[_ E]|[_ [t E]]]]]]]]]]; try discriminate.
  { exfalso. exact (council_membership d Hn E). }
  apply membership_born in Hb. destruct Hb as (_ & Hk & Hl). split; [exact Hk|].
  destruct (initial_weights_unique _ _ _ _ _ Hi2) as (_ & _ & _ & Hfw).
  destruct (requested_type (cm_membership m)) eqn:Et; destruct i; cbn [kind_of] in Hk; try discriminate.
  1-3: intros u; split; [exact (Hst u)|]; rewrite Hfw, (accepted_weights o m w Hw ltac:(rewrite Et; discriminate)); apply councillors_weight.
  intros u. rewrite Hfw. subst initial. symmetry. exact (Hst u).
Qed.

Lemma first_weights o s sender m v fresh s' log :
  fa_tx s (mk_fa_call o sender (FaCreate m v) fresh) = Ok (s', log) -> NoDup fresh ->
  exists d, assigned m fresh d /\
    forall i e st admin en l mn f,
      born log (d_membership d) (InitMember i) -> member_instantiate e i = Ok st ->
      born log (d_funds d) (InitFunds admin en l mn) -> funds_instantiate admin en mn l = Ok f ->
      kind_of i = requested_type (cm_membership m) /\
      match requested_type (cm_membership m) with
      | DaoMultisig => forall u, oget (f_weights f) u = oget (m_weights (members_of st)) u
      | _ => forall u, oget (m_weights (members_of st)) u = None
               /\ oget (f_weights f) u
                  = if existsb (N.eqb u) (match cm_council m with Some c => cs_members c | None => [] end)
                    then Some 1 else None
      end.
Proof.
  intros H Hf. apply creation_exact in H. destruct H as (vi & w & d & _ & Hw & Ha & _ & ->).
  exists d. split; [exact Ha|]. exact (weights_at_birth _ _ _ _ _ _ _ Hw (fresh_contracts _ _ _ Ha Hf)).
Qed.

(** An imported cw3 multisig: if its listing pages through the list [W] of its voters, all of them are imported. *)
Lemma voters_skip W k (ask : option N -> res (list (N * N))) : (0 < k)%nat ->
  (forall i u w, nth_error W i = Some (u, w) -> ask (Some u) = Ok (firstn k (skipn (S i) W))) ->
  forall start n l, voters_from ask start n l -> forall j, ask start = Ok (firstn k (skipn j W)) -> l = skipn j W.
Proof.
  intros Hk Hp start n l H. induction H as [start H|start page u w n l H H2 IH]; intros j Hj; rewrite Hj in H; apply (f_equal (fun r => match r with Ok x => x | Err _ => [] end)) in H; rename H into E; cbv beta iota in E.
  - destruct (skipn j W) as [|x r]; [reflexivity|]. destruct k; [lia|]. discriminate.
  - pose proof (firstn_skipn k (skipn j W)) as Hs. rewrite E in Hs.
    assert (Hi : nth_error W (j + length page) = Some (u, w)).
    { assert (G : nth_error (skipn j W) (length page) = Some (u, w)).
      { rewrite <- Hs, <- app_assoc, nth_error_app2, Nat.sub_diag by lia. reflexivity. }
      clear -G. revert W G. induction j as [|j IH]; intros W G; [exact G|]. destruct W as [|x W]; [|exact (IH W G)].
      destruct (length page); discriminate. }
    specialize (IH (S (j + length page)) (Hp _ _ _ Hi)). rewrite IH.
    refine (eq_trans _ Hs). rewrite <- app_assoc. f_equal. cbn [app]. f_equal.
    assert (G : skipn (length page + 1) (skipn j W) = skipn k (skipn j W)).
    { rewrite <- Hs at 1. rewrite skipn_app.
      replace (length page + 1 - length (page ++ [(u, w)]))%nat with 0%nat by (rewrite app_length; cbn [length]; lia).
      rewrite skipn_all2 by (rewrite app_length; cbn [length]; lia). reflexivity. }
    rewrite <- G. clear -W. replace (S (j + length page)) with (j + (length page + 1))%nat by lia.
    generalize (length page + 1)%nat. intros q. revert W. induction j as [|j IH]; intros W; [reflexivity|].
    destruct W as [|x W]; [destruct q; reflexivity|]. exact (IH W).
Qed.

Lemma cw3_imported o m w c W k :
  membership_accepted o m w -> cm_membership m = ImportCw3 c -> (0 < k)%nat ->
  pages_of W k (fun start => fo_voters o c (option_map fst start) 100) -> w = W.
Proof.
  intros H E Hk [Hp1 Hp2]. unfold membership_accepted in H. rewrite E in H. destruct H as (_ & _ & (n & Hv & _) & _).
  apply (voters_skip W k _ Hk) with (j := 0%nat) in Hv; [exact Hv| |exact Hp1].
  intros i u x Hn. exact (Hp2 i (u, x) Hn).
Qed.

(** Members of a multisig DAO are the requested ones. *)
Lemma multisig_members o m w l : membership_accepted o m w -> cm_membership m = NewMultisig l -> w = l /\ l <> [].
Proof. intros H E. unfold membership_accepted in H. rewrite E in H. tauto. Qed.

(** ** C65: the new token and the whitelist *)

Lemma new_treasury_lists o s sender m v fresh s' log :
  fa_tx s (mk_fa_call o sender (FaCreate m v) fresh) = Ok (s', log) -> NoDup fresh ->
  exists d, assigned m fresh d /\
    forall admin assets nfts t, born log (d_treasury d) (InitTreasury admin assets nfts) ->
      treasury_instantiate admin assets nfts = Ok t ->
      (forall a, listed t a <-> In a (dflt [] (cm_assets m))) /\ (forall n, nft_listed t n <-> In n (dflt [] (cm_nfts m))).
Proof.
  intros H Hf. apply creation_exact in H. destruct H as (vi & w & d & _ & _ & Ha & _ & ->).
  exists d. split; [exact Ha|]. intros admin assets nfts t Hb Hi.
  apply TreasuryFacts.instantiate_ok in Hi. destruct Hi as (_ & _ & _ & _ & H1 & H2).
  apply born_log in Hb. destruct Hb as [[_ E]|[[_ E]|[[_ E]|[[_ E]|[[_ E]|[[_ E]|[Hb|[[_ E]|[_ [t' E]]]]]]]]]]; try discriminate.
  - inversion E; subst. auto.
  - exfalso. destruct Hb as (ad & cd & Hb). unfold membership_log in Hb. destruct (cm_membership m); try destruct (d_token d);
      cbn [In] in Hb; repeat (destruct Hb as [Hb|Hb]; [discriminate|]); contradiction.
Qed.
