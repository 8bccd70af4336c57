(** The treasury sends what the proposals that were run ordered: induction over everything delivered. *)
From Coq Require Import Permutation.
From Verif Require Import Base OMap OMapLemmas Assets PollModel PollSpec PollProofs PollFacts FundsModel MemberModel MemberSpec
  MemberProofs MemberFacts Msgs ControllerModel ControllerSpec ControllerProofs ControllerFacts TreasuryModel TreasurySpec TreasuryProofs
  EnterpriseModel EnterpriseSpec EnterpriseFacts OutpostsModel WorldModel WorldSpec WorldMember WorldProofs WorldRun LiftFacts FacadeSpec PurseSpec.

(** * Lists up to order *)
Lemma perm_trans {T} (s0 s1 s2 r0 r1 r2 p q : list T) :
  Permutation (s1 ++ r0) (s0 ++ r1 ++ p) -> Permutation (s2 ++ r1) (s1 ++ r2 ++ q) -> Permutation (s2 ++ r0) (s0 ++ r2 ++ p ++ q).
Proof.
  intros H1 H2. apply (Permutation_app_inv_l (s1 ++ r1)).
  assert (L : Permutation ((s1 ++ r1) ++ s2 ++ r0) ((s1 ++ r0) ++ s2 ++ r1)).
  { rewrite <- !app_assoc. apply Permutation_app_head. rewrite !app_assoc.
    etransitivity; [apply (Permutation_app_comm (r1 ++ s2))|]. rewrite <- app_assoc. apply Permutation_app_head. apply Permutation_app_comm. }
  rewrite L, H1, H2. clear. rewrite <- !app_assoc.
  (* s0 r1 p s1 r2 q ~ s1 r1 s0 r2 p q *)
  transitivity (s1 ++ s0 ++ r1 ++ p ++ r2 ++ q).
  { rewrite !app_assoc. apply Permutation_app_tail, Permutation_app_tail. rewrite <- !app_assoc.
    transitivity ((s0 ++ r1 ++ p) ++ s1); [rewrite <- !app_assoc; reflexivity|]. apply Permutation_app_comm. }
  apply Permutation_app_head. etransitivity; [apply Permutation_app_swap_app|]. apply Permutation_app_head. apply Permutation_app_head.
  apply Permutation_app_swap_app.
Qed.

Lemma perm_head {T} (o a b c : list T) : Permutation (a ++ o ++ b) (c ++ o) -> Permutation (a ++ b) c.
Proof.
  intros H. apply (Permutation_app_inv_l o). etransitivity; [apply Permutation_app_swap_app|]. rewrite H. apply Permutation_app_comm.
Qed.

(** * What the treasury does when told *)

Lemma spends to : forall assets msgs, map_res (spend_msg to) assets = Ok msgs -> msgs = map plain (flat_map (transfer to) assets).
Proof.
  induction assets as [|[a k] l IH]; intros msgs H; cbn [map_res] in H.
  - injection H as <-. reflexivity.
  - apply bind_ok in H. destruct H as (m & Hm & H). apply bind_ok in H. destruct H as (ms & Hms & H). injection H as <-.
    rewrite (IH _ Hms). cbn [flat_map]. rewrite map_app. unfold spend_msg in Hm. cbn [fst snd] in Hm. apply bind_ok in Hm. destruct Hm as (i & Hi & Hm).
    apply bind_ok in Hm. destruct Hm as (mm & Hmm & Hm). injection Hm as <-.
    unfold check_asset in Hi. destruct a as [d|t|t id].
    + injection Hi as <-. cbn in Hmm. injection Hmm as <-. reflexivity.
    + apply bind_ok in Hi. destruct Hi as (t' & Ht & Hi). injection Hi as <-. unfold addr_validate in Ht. destruct (t =? 0); [discriminate|]. injection Ht as <-.
      cbn in Hmm. injection Hmm as <-. reflexivity.
    + apply bind_ok in Hi. destruct Hi as (t' & Ht & Hi). injection Hi as <-. discriminate Hmm.
Qed.

Definition coin_part (x : asset * N) : list coin := match fst x with Native d => [(d, snd x)] | _ => [] end.
Definition token_part (to : addr) (x : asset * N) : list cosmos_msg :=
  match fst x with Cw20 t => [WasmExecute t (ToCw20 (Cw20Send to (snd x) HookDistribute)) []] | _ => [] end.

Lemma distributes to : forall funds coins msgs coins' msgs', fold_res (tr_distribute_one to) (coins, msgs) funds = Ok (coins', msgs') ->
  coins' = coins ++ flat_map coin_part funds /\ msgs' = msgs ++ map plain (flat_map (token_part to) funds).
Proof.
  induction funds as [|[a k] l IH]; intros coins msgs coins' msgs' H; cbn [fold_res] in H.
  - injection H as <- <-. cbn. rewrite !app_nil_r. auto.
  - apply bind_ok in H. destruct H as ([c1 m1] & H1 & H). apply IH in H. destruct H as (-> & ->).
    unfold tr_distribute_one in H1. cbn [fst snd] in H1. cbn [flat_map]. unfold coin_part at 2, token_part at 2. cbn [fst snd].
    destruct a as [d|t|t id].
    + injection H1 as <- <-. rewrite <- app_assoc. auto.
    + apply bind_ok in H1. destruct H1 as (t' & Ht & H1). injection H1 as <- <-. unfold addr_validate in Ht. destruct (t =? 0); [discriminate|]. injection Ht as <-.
      rewrite map_app, <- app_assoc. auto.
    + discriminate H1.
Qed.

Lemma parsed msgs l : parse_msgs msgs = Ok l -> given msgs = l.
Proof.
  revert l. induction msgs as [|o t IH]; intros l H; unfold parse_msgs in *; cbn [map_res] in H; [injection H as <-; reflexivity|].
  apply bind_ok in H. destruct H as (m & Hm & H). apply bind_ok in H. destruct H as (ms & Hms & H). injection H as <-.
  destruct o; [|discriminate Hm]. injection Hm as <-. cbn [given flat_map]. unfold given in IH. rewrite (IH _ Hms). reflexivity.
Qed.

Definition fresh_old (t : treasury) : Prop := og_stage (tr_old t) = None.

Lemma add_assets_frame l t t' : add_assets t l = Ok t' -> tr_admin t' = tr_admin t /\ tr_old t' = tr_old t.
Proof.
  unfold add_assets. intros H. apply bind_ok in H. destruct H as (l' & _ & H).
  refine (fold_res_inv (fun x => tr_admin x = tr_admin t /\ tr_old x = tr_old t) _ _ _ t t' (conj eq_refl eq_refl) H).
  intros s a s' _ Hs Ha. destruct a; cbn in Ha; [injection Ha as <-; exact Hs..|discriminate].
Qed.
Lemma remove_assets_frame l t t' : remove_assets t l = Ok t' -> tr_admin t' = tr_admin t /\ tr_old t' = tr_old t.
Proof.
  unfold remove_assets. intros H.
  refine (fold_res_inv (fun x => tr_admin x = tr_admin t /\ tr_old x = tr_old t) _ _ _ t t' (conj eq_refl eq_refl) H).
  intros s a s' _ Hs Ha. destruct a; cbn in Ha.
  - injection Ha as <-. exact Hs.
  - apply bind_ok in Ha. destruct Ha as (c & _ & Ha). injection Ha as <-. exact Hs.
  - apply bind_ok in Ha. destruct Ha as (c & _ & Ha). injection Ha as <-. destruct (oget (tr_cw1155s s) c); exact Hs.
Qed.
Lemma add_nfts_frame l t t' : fold_res add_nft t l = Ok t' -> tr_admin t' = tr_admin t /\ tr_old t' = tr_old t.
Proof.
  intros H. refine (fold_res_inv (fun x => tr_admin x = tr_admin t /\ tr_old x = tr_old t) _ _ _ t t' (conj eq_refl eq_refl) H).
  intros s a s' _ Hs Ha. unfold add_nft in Ha. apply bind_ok in Ha. destruct Ha as (c & _ & Ha). injection Ha as <-. exact Hs.
Qed.
Lemma remove_nfts_frame l t t' : fold_res remove_nft t l = Ok t' -> tr_admin t' = tr_admin t /\ tr_old t' = tr_old t.
Proof.
  intros H. refine (fold_res_inv (fun x => tr_admin x = tr_admin t /\ tr_old x = tr_old t) _ _ _ t t' (conj eq_refl eq_refl) H).
  intros s a s' _ Hs Ha. unfold remove_nft in Ha. apply bind_ok in Ha. destruct Ha as (c & _ & Ha). injection Ha as <-. exact Hs.
Qed.

Lemma obeys gas t sender m t' subs : treasury_execute gas t sender m = Ok (t', subs) -> fresh_old t -> (forall a, m <> TrSetAdmin a) ->
  sender = tr_admin t /\ subs = map plain (told m) /\ tr_admin t' = tr_admin t /\ tr_old t' = tr_old t.
Proof.
  intros H HO HA. unfold treasury_execute in H.
  assert (G : forall u, tr_admin_only t sender = Ok u -> sender = tr_admin t).
  { intros u Hu. unfold tr_admin_only in Hu. apply guard_ok in Hu. apply N.eqb_eq. exact Hu. }
  destruct m.
  - destruct (HA a eq_refl).
  - apply bind_ok in H. destruct H as (u & Hu & H). apply bind_ok in H. destruct H as (t1 & H1 & H). apply bind_ok in H. destruct H as (t2 & H2 & H).
    injection H as <- <-. apply add_assets_frame in H1. apply remove_assets_frame in H2. destruct H1, H2. split; [eauto|]. split; [reflexivity|]. split; congruence.
  - apply bind_ok in H. destruct H as (u & Hu & H). apply bind_ok in H. destruct H as (t1 & H1 & H). apply bind_ok in H. destruct H as (t2 & H2 & H).
    injection H as <- <-. apply add_nfts_frame in H1. apply remove_nfts_frame in H2. destruct H1, H2. split; [eauto|]. split; [reflexivity|]. split; congruence.
  - unfold spend in H. apply bind_ok in H. destruct H as (u & Hu & H). apply bind_ok in H. destruct H as (ms & Hm & H). injection H as <- <-.
    apply spends in Hm. split; [eauto|]. auto.
  - unfold tr_distribute in H. apply bind_ok in H. destruct H as (u & Hu & H). apply bind_ok in H. destruct H as (d & Hd & H).
    apply bind_ok in H. destruct H as ([coins ms] & Hm & H). injection H as <- <-. unfold addr_validate in Hd. destruct (distributor =? 0); [discriminate|]. injection Hd as <-.
    apply distributes in Hm. destruct Hm as (-> & ->). cbn [fst snd app told]. split; [eauto|]. split; [|auto]. unfold handing. rewrite map_app. f_equal.
    change (flat_map (fun x : asset * N => match fst x with Native d => [(d, snd x)] | _ => [] end) funds) with (flat_map coin_part funds).
    destruct (flat_map coin_part funds) as [|c l]; [reflexivity|]. destruct (N.ltb_spec 0 (N.of_nat (length (c :: l)))) as [|L]; [reflexivity|]. cbn [length] in L. lia.
  - unfold execute_cosmos_msgs in H. apply bind_ok in H. destruct H as (u & Hu & H). apply bind_ok in H. destruct H as (l & Hl & H). injection H as <- <-.
    apply parsed in Hl. cbn [told]. rewrite Hl. split; [eauto|auto].
  - apply bind_ok in H. destruct H as ([o ms] & H1 & H). unfold migration_step in H1. rewrite HO in H1. discriminate H1.
Qed.

Section P.
Context {X : Type}.
Variable Out : outside X.
Variable A : addrs.
Hypothesis HA : NoDup (dao_addrs A).
Local Notation world := (world X).
Local Notation go := (go Out A).
Local Notation oracle := (ctl_oracle_of Out A).
Local Notation ctl_addr := (a_controller A).
Local Notation tre_addr := (a_treasury A).

Lemma tre_not_ctl : tre_addr <> ctl_addr.
Proof. pose proof (apart A HA) as H. decompose [and] H. congruence. Qed.

(** What the treasury will be told to send, or sends, by a message that is still to be delivered. *)
Definition order_in (m : cosmos_msg) : list cosmos_msg :=
  match m with WasmExecute to (ToTreasury tm) _ => if to =? tre_addr then told tm else [] | _ => [] end.
Definition pend (s : addr) (m : cosmos_msg) : list cosmos_msg :=
  if s =? tre_addr then [m] else if s =? ctl_addr then order_in m else [].
Definition job_pend (j : job) : list cosmos_msg :=
  match j with JMsg s m => pend s m | JSubs self subs => flat_map (fun x => pend self (sm_msg x)) subs end.

Lemma pend_ctl m : pend ctl_addr m = order_in m.
Proof. unfold pend. destruct (N.eqb_spec ctl_addr tre_addr) as [E|]; [destruct (tre_not_ctl (eq_sym E))|]. rewrite N.eqb_refl. reflexivity. Qed.
Lemma pend_tre m : pend tre_addr m = [m].
Proof. unfold pend. rewrite N.eqb_refl. reflexivity. Qed.
Lemma pend_other s m : s <> tre_addr -> s <> ctl_addr -> pend s m = [].
Proof. intros H1 H2. unfold pend. destruct (N.eqb_spec s tre_addr); [contradiction|]. destruct (N.eqb_spec s ctl_addr); [contradiction|reflexivity]. Qed.
Lemma subs_ctl subs : job_pend (JSubs ctl_addr subs) = flat_map (fun x => order_in (sm_msg x)) subs.
Proof. cbn [job_pend]. apply flat_map_ext. intros x. apply pend_ctl. Qed.
Lemma subs_other s subs : s <> tre_addr -> s <> ctl_addr -> job_pend (JSubs s subs) = [].
Proof. intros H1 H2. cbn [job_pend]. induction subs as [|x l IH]; [reflexivity|]. cbn [flat_map]. rewrite IH, pend_other by assumption. reflexivity. Qed.
Lemma subs_tre l : job_pend (JSubs tre_addr (map plain l)) = l.
Proof. cbn [job_pend]. induction l as [|x l IH]; [reflexivity|]. cbn [flat_map map plain sm_msg]. rewrite IH, pend_tre. reflexivity. Qed.

(** * The controller *)

Lemma action_order o s a s' subs att : co_components o = Ok (wiring_of A att) -> ct_enterprise s = a_enterprise A ->
  run_action o s a = Ok (s', subs) -> flat_map (fun x => order_in (sm_msg x)) subs = action_orders A a.
Proof.
  intros HC HE H.
  assert (S1 : forall t m, flat_map (fun x => order_in (sm_msg x)) [plain (WasmExecute t (ToEnterprise m) [])] = []) by reflexivity.
  assert (S2 : forall m target x, to_treasury o m target = Ok x ->
    flat_map (fun x => order_in (sm_msg x)) [x] = match target with None => told m | Some _ => [] end).
  { intros m target x Hx. unfold to_treasury in Hx. rewrite HC in Hx. cbn [bind] in Hx. injection Hx as <-.
    destruct target; cbn; [reflexivity|]. rewrite N.eqb_refl, app_nil_r. reflexivity. }
  destruct a; cbn [run_action] in H.
  - inversion H; subst. reflexivity.
  - unfold act_gov_config in H. rewrite HC in H. cb.
    match goal with H : _ = Ok subs |- _ => rename H into HM end.
    destruct (gu_unlocking_period u); cb; [|reflexivity]. destruct x; reflexivity.
  - unfold act_council in H. rewrite HC in H. cb. reflexivity.
  - cb. match goal with H : to_treasury _ _ _ = _ |- _ => rewrite (S2 _ _ _ H) end. destruct target; reflexivity.
  - cb. match goal with H : to_treasury _ _ _ = _ |- _ => rewrite (S2 _ _ _ H) end. destruct target; reflexivity.
  - cb. match goal with H : to_treasury _ _ _ = _ |- _ => rewrite (S2 _ _ _ H) end. destruct target; reflexivity.
  - cb. reflexivity.
  - cb. match goal with H : parse_msgs _ = Ok _ |- _ => apply parsed in H; rename H into HP end. cbn [action_orders]. rewrite HP.
    clear. match goal with |- flat_map _ (map _ ?l) = _ => induction l as [|m l IH]; [reflexivity|] end. cbn [map flat_map plain sm_msg]. rewrite IH. reflexivity.
  - cb. match goal with H : to_treasury _ _ _ = _ |- _ => rewrite (S2 _ _ _ H) end. destruct target; reflexivity.
  - inversion H; subst. reflexivity.
  - rewrite HC in H. cb. reflexivity.
  - rewrite HC in H. cb. cbn. rewrite N.eqb_refl, app_nil_r. reflexivity.
  - rewrite HC in H. cb. reflexivity.
  - rewrite HC in H. cb. reflexivity.
Qed.

Lemma actions_order o att : co_components o = Ok (wiring_of A att) -> forall l s acc s' subs,
  ct_enterprise s = a_enterprise A -> fold_res (run_action_acc o) (s, acc) l = Ok (s', subs) ->
  flat_map (fun x => order_in (sm_msg x)) subs = flat_map (fun x => order_in (sm_msg x)) acc ++ flat_map (action_orders A) l.
Proof.
  intros HC. induction l as [|a l IH]; intros s acc s' subs HE H; cbn [fold_res] in H.
  - inversion H; subst. cbn. rewrite app_nil_r. reflexivity.
  - unfold run_action_acc in H at 1. cbn [fst snd] in H. cb.
    match goal with H : run_action _ _ _ = Ok _ |- _ => rename H into HR end.
    pose proof (run_action_frame _ _ _ _ _ HR) as (_ & EE & _).
    apply IH in H; [|congruence]. rewrite H, flat_map_app, (action_order _ _ _ _ _ _ HC HE HR), <- app_assoc. reflexivity.
Qed.

(** Councils' proposals carry no deposit. *)
Definition free_councils (w : world) : Prop :=
  forall id p, oget (ct_proposals (w_ctl w)) id = Some p -> pi_type p = Council -> pi_deposit p = None.

Lemma turn_free w e sender m w1 subs1 : turn Out A w e sender m w1 subs1 -> free_councils w -> free_councils w1.
Proof.
  intros T F. destruct T.
  - intros i p Hp. rewrite H8, oget_oset in Hp. destruct (id =? i); [injection Hp as <-; assumption|exact (F _ _ Hp)].
  - intros i q Hq. rewrite H7 in Hq. destruct (id =? i); [injection Hq as <-|exact (F _ _ Hq)]. injection H5 as E1 E2 E3. rewrite E1, E2. exact (F _ _ H).
  - unfold free_councils. rewrite H5. exact F.
  - intros i q Hq. rewrite H6, oget_oset in Hq. destruct (id =? i); [injection Hq as <-|exact (F _ _ Hq)]. exact (F _ _ H).
  - unfold free_councils. rewrite H3. exact F.
  - unfold free_councils. rewrite H3. exact F.
  - unfold free_councils. rewrite H2. exact F.
Qed.

Definition no_order (subs : list sub_msg) : Prop := Forall (fun x => order_in (sm_msg x) = []) subs.

Lemma hands_no_order to a l : hands_over to a l -> no_order l.
Proof.
  intros H. destruct H; [constructor; [reflexivity|constructor]..|].
  induction H; constructor; [|assumption]. subst. reflexivity.
Qed.

Lemma turn_no_order w e sender m w1 subs1 : turn Out A w e sender m w1 subs1 -> free_councils w ->
  (forall id, m <> CExecuteActions id) -> m <> CDeployInitial -> (forall ch, m = CWeightsChanged ch -> sender <> a_council A) -> no_order subs1.
Proof.
  intros T F N1 N2 N3. destruct T.
  - eapply Forall_impl; [|exact H4]. intros x (to & t & ->). reflexivity.
  - constructor.
  - constructor.
  - apply Forall_app. split; [destruct (p_status pl); repeat constructor|].
    destruct (pi_deposit p) as [d|] eqn:ED; [|subst dep; constructor].
    destruct (pi_type p) eqn:ET; [|pose proof (F _ _ H ET); congruence].
    destruct (H7 eq_refl) as (to & _ & HH). exact (hands_no_order _ _ _ HH).
  - constructor; [reflexivity|constructor].
  - destruct (N1 _ eq_refl).
  - destruct H as [->|(ch & -> & E)]; [destruct (N2 eq_refl)|destruct (N3 _ eq_refl E)].
Qed.

Lemma ctl_ordered n (w : world) e sender coins m s' subs w' d :
  wired A w -> free_councils w -> ctl_execute (oracle w) ctl_addr (w_ctl w) e sender coins m = Ok (s', subs) ->
  go n (set_ctl w s') e (JSubs ctl_addr subs) = Ok (w', d) ->
  exists n' w1 subs1, (n' <= n)%nat /\ turn Out A w e sender m w1 subs1 /\ (exists d', go n' w1 e (JSubs ctl_addr subs1) = Ok (w', d')) /\
    ((exists id p, m = CExecuteActions id /\ sender = ctl_addr /\ oget (ct_proposals (w_ctl w)) id = Some p /\ w_log w1 = w_log w /\
        flat_map (fun x => order_in (sm_msg x)) subs1 = orders A p /\ Forall (fun x => sm_reply x = ReplyNever) subs1) \/
     (no_order subs1 /\ forall id, m <> CExecuteActions id)).
Proof.
  intros HW HF HX HG. destruct (wired_components Out A _ HW) as (att & HC).
  assert (G : (exists id, m = CExecuteActions id) \/ (m = CDeployInitial \/ exists ch, m = CWeightsChanged ch /\ sender = a_council A) \/
    ((forall id, m <> CExecuteActions id) /\ m <> CDeployInitial /\ forall ch, m = CWeightsChanged ch -> sender <> a_council A)).
  { destruct m; try (right; right; repeat split; congruence); [|left; eauto|right; left; left; reflexivity].
    destruct (N.eq_dec sender (a_council A)) as [->|]; [right; left; right; eauto|]. right; right. repeat split; congruence. }
  destruct G as [(id & ->)|[G|(N1 & N2 & N3)]].
  - pose proof HX as HX0. apply (WorldProofs.ctl_call A HA _ _ _ _ _ _ _ _ _ HC (wi_of _ _ HW)) in HX0.
    exists n, (set_ctl w s'), subs. split; [lia|]. remember (CExecuteActions id) as cm eqn:EM. destruct HX0; try discriminate EM;
      try (match goal with Q : creates _ |- _ => rewrite EM in Q; destruct Q end);
      try (match goal with Q : _ \/ _ |- _ => destruct Q as [Q|(? & Q & _)]; rewrite EM in Q; discriminate Q end).
    injection EM as ->. split.
    { eapply tu_actions; try eassumption; try reflexivity. split; [reflexivity|]. split; [reflexivity|]. split; [reflexivity|]. split; [assumption|reflexivity]. }
    split; [eexists; exact HG|]. left. exists id, p. split; [reflexivity|]. split; [assumption|]. split; [assumption|]. split; [reflexivity|]. split.
    + cbn [ctl_execute] in HX. unfold execute_actions in HX. apply bind_ok in HX. destruct HX as (u & _ & HX). apply bind_ok in HX. destruct HX as (p' & Hp' & HX).
      match goal with Q : oget _ id = Some p |- _ => rewrite Q in Hp' end. injection Hp' as <-. exact (actions_order _ _ HC _ _ _ _ _ (wi_of _ _ HW) HX).
    + eapply Forall_impl; [|eassumption]. intros x (Q & _). exact Q.
  - exists n, (set_ctl w s'), subs. split; [lia|]. pose proof HX as HX0. apply (WorldProofs.ctl_call A HA _ _ _ _ _ _ _ _ _ HC (wi_of _ _ HW)) in HX0.
    assert (Q : no_order subs /\ ct_proposals s' = ct_proposals (w_ctl w) /\ ct_enterprise s' = ct_enterprise (w_ctl w) /\
      Forall (fun x => sm_reply x = ReplyNever /\ mild A (sm_msg x) /\ payment ctl_addr (sm_msg x) = []) subs).
    { destruct G as [->|(ch & -> & ->)].
      - cbn [ctl_execute] in HX. split.
        + unfold deploy_initial in HX. cb. rewrite HC in HX. destruct (dflt [] (ct_treasuries (w_ctl w))) as [|dd l]; cb; [constructor|].
          constructor; [reflexivity|]. apply Forall_forall. intros y Hy. apply in_map_iff in Hy. destruct Hy as (z & <- & _). reflexivity.
        + remember CDeployInitial as cm eqn:EM. destruct HX0; try discriminate EM;
            try (match goal with Q : creates _ |- _ => rewrite EM in Q; destruct Q end). auto.
      - cbn [ctl_execute] in HX. unfold weights_changed in HX. rewrite HC in HX. cbn [bind wiring_of c_council] in HX. rewrite N.eqb_refl in HX. injection HX as <- <-.
        repeat split; constructor. }
    destruct Q as (Q1 & Q2 & Q3 & Q4). split.
    { apply tu_other; try assumption; try reflexivity. split; [reflexivity|]. split; [reflexivity|]. split; [reflexivity|]. split; [assumption|reflexivity]. }
    split; [eexists; exact HG|]. right. split; [exact Q1|]. intros id E. destruct G as [G|(ch & G & _)]; congruence.
  - destruct (ctl_turn Out A HA _ _ _ _ _ _ _ _ _ _ HW HX HG) as (n' & w1 & subs1 & L & T & G2). exists n', w1, subs1.
    split; [exact L|]. split; [exact T|]. split; [exact G2|]. right. split; [|exact N1]. exact (turn_no_order _ _ _ _ _ _ T HF N1 N2 N3).
Qed.

(** * What was sent and what was ordered *)

Local Notation sent := (sent_by tre_addr).
Definition bal (w w' : world) (p : list cosmos_msg) : Prop := Permutation (sent w' ++ ordered A w) (sent w ++ ordered A w' ++ p).
Definition present (w : world) : Prop := forall id, In id (runs A w) -> exists p, oget (ct_proposals (w_ctl w)) id = Some p.
Definition obedient (w : world) : Prop := tr_admin (w_treasury w) = ctl_addr /\ fresh_old (w_treasury w).
Definition sound (w : world) : Prop := wired A w /\ present w /\ free_councils w /\ obedient w.

Lemma bal_trans w w1 w2 p q : bal w w1 p -> bal w1 w2 q -> bal w w2 (p ++ q).
Proof. unfold bal. apply perm_trans. Qed.
Lemma bal_after w w1 w2 p : bal w w1 [] -> bal w1 w2 p -> bal w w2 p.
Proof. intros H1 H2. exact (bal_trans _ _ _ _ _ H1 H2). Qed.

Lemma orders_kept (w w1 : world) ids : (forall id, In id ids -> exists p, oget (ct_proposals (w_ctl w)) id = Some p) -> kept w w1 ->
  flat_map (orders_of A w1) ids = flat_map (orders_of A w) ids.
Proof.
  intros HP (_ & _ & K). induction ids as [|id l IH]; [reflexivity|]. cbn [flat_map]. rewrite IH by (intros; apply HP; right; assumption). f_equal.
  destruct (HP id (or_introl eq_refl)) as (p & Hp). destruct (K _ _ Hp) as (p' & Hp' & E & _). unfold orders_of. rewrite Hp, Hp'.
  injection E as _ _ E. unfold orders. rewrite E. reflexivity.
Qed.

(** nothing sent by the treasury, nothing run *)
Definition dull (x : addr * cosmos_msg) : Prop :=
  fst x <> tre_addr /\ forall id coins, snd x <> WasmExecute ctl_addr (ToController (CExecuteActions id)) coins.

Lemma runs_not m s : (forall id coins, m <> WasmExecute ctl_addr (ToController (CExecuteActions id)) coins) -> forall l,
  flat_map (fun x => match snd x with WasmExecute to (ToController (CExecuteActions i)) _ => if to =? ctl_addr then [i] else [] | _ => [] end) ((s, m) :: l) =
  flat_map (fun x : addr * cosmos_msg => match snd x with WasmExecute to (ToController (CExecuteActions i)) _ => if to =? ctl_addr then [i] else [] | _ => [] end) l.
Proof.
  intros H l. cbn [flat_map snd]. destruct m; try reflexivity. destruct m; try reflexivity. destruct m; try reflexivity.
  destruct (N.eqb_spec contract ctl_addr) as [->|]; [|reflexivity]. destruct (H id funds eq_refl).
Qed.

Lemma dull_same (w w1 : world) l : w_log w1 = l ++ w_log w -> Forall dull l -> sent w1 = sent w /\ runs A w1 = runs A w.
Proof.
  unfold sent_by, runs. intros -> H. induction H as [|[s m] l (H1 & H2) _ (I1 & I2)]; [split; reflexivity|]. cbn [fst snd] in *. split.
  - cbn [app flat_map fst snd]. destruct (N.eqb_spec s tre_addr); [contradiction|]. exact I1.
  - cbn [app]. rewrite runs_not by exact H2. exact I2.
Qed.

Lemma dull_bal (w w1 : world) l : w_log w1 = l ++ w_log w -> Forall dull l -> present w -> kept w w1 -> bal w w1 [] /\ present w1.
Proof.
  intros HL HD HP HK. destruct (dull_same _ _ _ HL HD) as (E1 & E2). split.
  - unfold bal, ordered. rewrite E1, E2, (orders_kept _ _ _ HP HK), app_nil_r. reflexivity.
  - intros id Hid. rewrite E2 in Hid. destruct (HP _ Hid) as (p & Hp). destruct HK as (_ & _ & K). destruct (K _ _ Hp) as (p' & Hp' & _). eauto.
Qed.

(** the log entry of a delivered message *)
Lemma start_bal (w : world) s m x : (forall id coins, m <> WasmExecute ctl_addr (ToController (CExecuteActions id)) coins) ->
  present w -> bal w (set_ext (note w s m) x) (if s =? tre_addr then [m] else []) /\ present (set_ext (note w s m) x).
Proof.
  intros HM HP. assert (E : runs A (set_ext (note w s m) x) = runs A w) by (unfold runs; cbn [w_log set_ext note]; apply runs_not; exact HM).
  split; [|unfold present; rewrite E; exact HP]. unfold bal, ordered. rewrite E.
  change (flat_map (orders_of A (set_ext (note w s m) x)) (runs A w)) with (flat_map (orders_of A w) (runs A w)).
  unfold sent_by. cbn [w_log set_ext note flat_map fst snd]. destruct (s =? tre_addr); cbn [app]; [|rewrite app_nil_r; reflexivity].
  rewrite app_assoc. apply Permutation_cons_append.
Qed.
Lemma pend_start s to wm coins : (s = ctl_addr -> forall tm, to = tre_addr -> wm <> ToTreasury tm) ->
  pend s (WasmExecute to wm coins) = if s =? tre_addr then [WasmExecute to wm coins] else [].
Proof.
  intros H. unfold pend. destruct (s =? tre_addr); [reflexivity|]. destruct (N.eqb_spec s ctl_addr) as [E|]; [|reflexivity].
  cbn [order_in]. destruct wm; try reflexivity. destruct (N.eqb_spec to tre_addr) as [E1|]; [|reflexivity]. destruct (H E _ E1 eq_refl).
Qed.

Definition job_ok (j : job) : Prop :=
  match j with
  | JMsg _ _ => True
  | JSubs self subs =>
      (self = ctl_addr -> fine subs /\ Forall (fun x => order_in (sm_msg x) = [] \/ sm_reply x = ReplyNever) subs) /\
      (self = tre_addr -> Forall (fun x => sm_reply x = ReplyNever) subs)
  end.

Lemma plain_ok l : job_ok (JSubs tre_addr (map plain l)).
Proof.
  split; [intros E; destruct (tre_not_ctl E)|]. intros _. apply Forall_forall. intros x Hx. apply in_map_iff in Hx. destruct Hx as (m & <- & _). reflexivity.
Qed.
Lemma other_ok self subs : self <> ctl_addr -> self <> tre_addr -> job_ok (JSubs self subs).
Proof. intros H1 H2. split; intros E; contradiction. Qed.

(** only what does not matter here changes *)
Lemma still_sound (w w1 : world) : sound w -> wired A w1 -> kept w w1 -> w_ctl w1 = w_ctl w -> w_treasury w1 = w_treasury w -> w_log w1 = w_log w ->
  bal w w1 [] /\ sound w1.
Proof.
  intros (W & P & F & T) W1 K EC ET EL. destruct (dull_bal w w1 [] EL (Forall_nil _) P K) as (B & P1). split; [exact B|].
  split; [exact W1|]. split; [exact P1|]. split; [unfold free_councils; rewrite EC; exact F|unfold obedient; rewrite ET; exact T].
Qed.

Lemma kept_back (w w' : world) l : w_log w' = l ++ w_log w -> treasury_kept A w' -> treasury_kept A w.
Proof. intros E H s a coins Hin. apply (H s a coins). rewrite E. apply in_or_app. right. exact Hin. Qed.

Lemma turn_dull w e s m w1 subs1 : turn Out A w e s m w1 subs1 -> w_treasury w1 = w_treasury w /\ exists l, w_log w1 = l ++ w_log w /\ Forall dull l.
Proof.
  assert (G : forall l, stepped A w w1 l -> w_treasury w1 = w_treasury w /\ exists k, w_log w1 = k ++ w_log w /\ Forall dull k).
  { intros l (E & _ & _ & _ & EL). injection E as _ _ E _. split; [exact E|]. eexists. split; [exact EL|].
    apply Forall_forall. intros x Hx. apply in_map_iff in Hx. destruct Hx as (gm & <- & _). split; [exact (not_eq_sym tre_not_ctl)|]. intros. discriminate. }
  intros T. destruct T; eapply G; eassumption.
Qed.

Lemma go_obeyed n : forall (w : world) e j w' d, go n w e j = Ok (w', d) -> sound w -> job_ok j -> size w' < M64 -> treasury_kept A w' ->
  bal w w' (job_pend j) /\ sound w'.
Proof.
  induction n as [n IH] using lt_wf_ind. intros w e j w' d H HI HJ HS HK.
  destruct j as [s m|self [|x rest]].
  - destruct n as [|n]; [discriminate|]. pose proof HI as (HW & HP & HF & HT).
    pose proof (layer1 Out A HA _ _ _ _ _ _ H HW I HS) as (LW & LK).
    apply go_msg in H. destruct H as [(to & wm & coins & x & w1 & subs & d' & -> & _ & Hh & Hg)|(NE & Ho)].
    + destruct (start_wired A w s (WasmExecute to wm coins) x HW) as (W0 & K0 & S0).
      assert (LG : w_log (set_ext (note w s (WasmExecute to wm coins)) x) = (s, WasmExecute to wm coins) :: w_log w) by reflexivity.
      pose proof (start_bal w s (WasmExecute to wm coins) x) as SB.
      assert (F0 : free_councils (set_ext (note w s (WasmExecute to wm coins)) x)) by exact HF.
      assert (T0 : obedient (set_ext (note w s (WasmExecute to wm coins)) x)) by exact HT.
      assert (C0 : w_ctl (set_ext (note w s (WasmExecute to wm coins)) x) = w_ctl w) by reflexivity.
      set (w0 := set_ext (note w s (WasmExecute to wm coins)) x) in *.
      pose proof (go_size _ _ _ _ _ _ _ _ Hg) as GS. pose proof (handle_log _ _ _ _ _ _ _ _ _ _ _ _ Hh) as HL.
      destruct (go_log _ _ _ _ _ _ _ _ Hg) as (lg & Elg). rewrite HL in Elg.
      pose proof (handle_all Out A _ _ _ _ _ _ _ _ _ _ Hh) as HAll.
      apply handle_cases in Hh. destruct Hh as [(-> & cm & s' & -> & He & -> & _)|HH].
      * destruct (ctl_ordered _ _ _ _ _ _ _ _ _ _ W0 F0 He Hg) as (n' & w1 & subs1 & L & T & (d2 & G) & HM).
        pose proof (go_size _ _ _ _ _ _ _ _ G) as GS1.
        pose proof T as TW. apply turn_wired in TW; [|assumption|lia]. destruct TW as (W1 & K1 & F1).
        pose proof (turn_free _ _ _ _ _ _ T F0) as FC1. pose proof (turn_dull _ _ _ _ _ _ T) as (ET & l & EL & DL).
        assert (P0 : present w0).
        { destruct HM as [(id & p & -> & -> & Hp & _)|(_ & NX)].
          - intros i Hi. unfold runs in Hi. rewrite LG in Hi. cbn [flat_map snd] in Hi. rewrite N.eqb_refl in Hi. apply in_app_or in Hi. destruct Hi as [[<-|[]]|Hi]; [eauto|].
            rewrite C0. exact (HP _ Hi).
          - apply SB; [|exact HP]. intros id c E. injection E as E _. exact (NX _ E). }
        destruct (dull_bal _ _ _ EL DL P0 K1) as (B1 & P1).
        assert (SD1 : sound w1).
        { split; [exact W1|]. split; [exact P1|]. split; [exact FC1|]. unfold obedient. rewrite ET. exact T0. }
        assert (JO : job_ok (JSubs ctl_addr subs1)).
        { split; [|intros E; destruct (tre_not_ctl (eq_sym E))]. intros _. split; [exact F1|].
          destruct HM as [(id & p & _ & _ & _ & _ & _ & HM)|(HM & _)]; (eapply Forall_impl; [|exact HM]); intros; cbn beta; tauto. }
        destruct (IH n' ltac:(lia) _ _ _ _ _ G SD1 JO HS HK) as (B2 & SD2). split; [|exact SD2].
        rewrite subs_ctl in B2. pose proof (bal_after _ _ _ _ B1 B2) as B.
        destruct HM as [(id & p & -> & -> & Hp & _ & EO & _)|(HM & NX)].
        -- rewrite EO in B. unfold bal in B.
           assert (E1 : sent w0 = sent w).
           { unfold sent_by. rewrite LG. cbn [flat_map fst]. destruct (N.eqb_spec ctl_addr tre_addr) as [E|]; [destruct (tre_not_ctl (eq_sym E))|reflexivity]. }
           assert (E2 : ordered A w0 = orders A p ++ ordered A w).
           { unfold ordered, runs. rewrite LG. cbn [flat_map snd]. rewrite N.eqb_refl. cbn [app flat_map]. unfold orders_of at 1. rewrite Hp. reflexivity. }
           rewrite E1, E2, app_assoc in B. rewrite app_assoc in B. rewrite <- app_assoc in B. apply perm_head in B.
           unfold bal. cbn [job_pend]. rewrite pend_ctl. cbn [order_in]. rewrite app_nil_r. exact B.
        -- assert (Z : flat_map (fun x => order_in (sm_msg x)) subs1 = []).
           { clear -HM. induction HM as [|y l Hy _ IHm]; [reflexivity|]. cbn [flat_map]. rewrite Hy, IHm. reflexivity. }
           rewrite Z in B. destruct SB as (B0 & _); [intros id c E; injection E as E _; exact (NX _ E)|exact HP|].
           cbn [job_pend]. rewrite pend_start by (intros _ tm E; destruct (tre_not_ctl (eq_sym E))).
           pose proof (bal_trans _ _ _ _ _ B0 B) as BB. rewrite app_nil_r in BB. exact BB.
      * assert (NC : to <> ctl_addr).
        { destruct HH as [(-> & _)|[(-> & _)|(N1 & _)]]; [apply (gov_not_ctl A HA)|apply (member_not_ctl A HA)|exact N1]. }
        destruct SB as (B0 & P0); [intros id c E; injection E as E _ _; contradiction|exact HP|].
        assert (SD0 : sound w0) by (split; [exact W0|]; split; [exact P0|]; split; assumption).
        assert (EC : w_ctl w1 = w_ctl w0) by (destruct HH as [(_ & gm & g & _ & _ & -> & _)|[(_ & mm & s' & outs & _ & _ & -> & _)|(_ & _ & _ & Q)]]; [reflexivity|reflexivity|apply Q]).
        destruct (N.eq_dec to tre_addr) as [->|NT].
        -- assert (HX : exists tm, wm = ToTreasury tm /\ treasury_execute n (w_treasury w0) s tm = Ok (w_treasury w1, subs)).
           { pose proof (apart A HA) as AP. decompose [and] AP.
             destruct HAll as [(E & _)|[(E & _)|[(E & _)|[(E & _)|[(E & _)|[(_ & _ & Q)|[(E & _)|[(E & _)|(E & _)]]]]]]]];
               try (exact Q); exfalso; try (congruence); apply E; unfold dao_addrs; cbn [In]; tauto. }
           destruct HX as (tm & -> & HX). destruct T0 as (T1 & T2).
           destruct (obeys _ _ _ _ _ _ HX T2) as (Es & -> & Ea & Eo).
           { intros a ->. apply (HK s a coins). rewrite Elg, LG. apply in_or_app. right. left. reflexivity. }
           rewrite T1 in Es. subst s.
           assert (WK : wired A w1 /\ kept w0 w1).
           { destruct HH as [(E & _)|[(E & _)|(_ & _ & _ & Q)]]; [| |exact (quiet_wired A _ _ Q W0)].
             - pose proof (apart A HA) as AP. decompose [and] AP. congruence.
             - pose proof (apart A HA) as AP. decompose [and] AP. congruence. }
           destruct WK as (W1 & K1). destruct (dull_bal w0 w1 [] HL (Forall_nil _) P0 K1) as (B1 & P1).
           assert (SD1 : sound w1).
           { split; [exact W1|]. split; [exact P1|]. split; [unfold free_councils; rewrite EC; exact F0|]. split; [congruence|]. unfold fresh_old. rewrite Eo. exact T2. }
           destruct (IH n ltac:(lia) _ _ _ _ _ Hg SD1 (plain_ok _) HS HK) as (B2 & SD2). split; [|exact SD2].
           rewrite subs_tre in B2. cbn [job_pend]. rewrite pend_ctl. cbn [order_in]. rewrite N.eqb_refl.
           destruct (N.eqb_spec ctl_addr tre_addr) as [E|]; [destruct (tre_not_ctl (eq_sym E))|]. exact (bal_after _ _ _ _ B0 (bal_after _ _ _ _ B1 B2)).
        -- assert (ET : w_treasury w1 = w_treasury w0).
           { destruct HAll as [(_ & Q & _)|[(_ & Q & _)|[(_ & Q & _)|[(_ & Q & _)|[(_ & Q & _)|[(E & _)|[(_ & Q & _)|[(_ & Q & _)|(_ & Q)]]]]]]]]; try contradiction;
               destruct Q as (_ & _ & _ & _ & _ & Q & _); apply Q; discriminate. }
           assert (BG : bal w0 w' [] /\ sound w').
           { destruct HH as [(-> & gm & g & -> & He & -> & ->)|HH].
             - apply go_nil in Hg. destruct Hg as [-> _]. apply still_sound; try assumption; try reflexivity.
               split; [reflexivity|]. split; [apply LK|]. intros id p Hp. exists p. auto.
             - assert (WK : wired A w1 /\ kept w0 w1).
               { destruct HH as [(-> & mm & s' & outs & -> & He & -> & -> & _)|(N1 & N2 & N3 & Q)]; [apply (member_wired A w0 s' W0)|apply (quiet_wired A _ _ Q W0)]. }
               destruct WK as (W1 & K1). destruct (still_sound _ _ SD0 W1 K1 EC ET HL) as (B1 & SD1).
               destruct (IH n ltac:(lia) _ _ _ _ _ Hg SD1 (other_ok _ _ NC NT) HS HK) as (B2 & SD2). rewrite (subs_other _ _ NT NC) in B2.
               split; [exact (bal_after _ _ _ _ B1 B2)|exact SD2]. }
           destruct BG as (BG & SD). split; [|exact SD]. cbn [job_pend]. rewrite pend_start by (intros _ tm E; contradiction).
           pose proof (bal_trans _ _ _ _ _ B0 BG) as BB. rewrite app_nil_r in BB. exact BB.
    + pose proof (other_all Out A _ _ _ _ _ _ Ho) as OA. apply other_quiet in Ho. destruct (note_wired A w s m HW) as (W1 & K1).
      destruct (start_bal w s m (w_ext w)) as (B0 & P0); [intros; apply NE|exact HP|].
      assert (EN : set_ext (note w s m) (w_ext w) = note w s m) by (destruct w; reflexivity). rewrite EN in *.
      assert (SD0 : sound (note w s m)) by (split; [exact W1|]; split; [exact P0|]; split; assumption).
      destruct (quiet_wired A _ _ Ho W1) as (W2 & K2).
      destruct (still_sound _ _ SD0 W2 K2) as (B1 & SD1); [apply Ho|apply OA; discriminate|apply Ho|]. split; [|exact SD1].
      assert (EP : job_pend (JMsg s m) = if s =? tre_addr then [m] else []).
      { cbn [job_pend]. unfold pend. destruct (s =? tre_addr); [reflexivity|]. destruct (s =? ctl_addr); [|reflexivity]. destruct m; try reflexivity. destruct (NE _ _ _ eq_refl). }
      rewrite EP. pose proof (bal_trans _ _ _ _ _ B0 B1) as BB. rewrite app_nil_r in BB. exact BB.
  - apply go_nil in H. destruct H as [-> _]. split; [|exact HI]. unfold bal. cbn [job_pend flat_map]. rewrite app_nil_r. reflexivity.
  - apply go_cons in H. destruct H as (n' & -> & H). destruct HJ as (J1 & J2).
    assert (JR : job_ok (JSubs self rest)).
    { split; intros E; [destruct (J1 E) as (Q1 & Q2); split; [exact (Forall_inv_tail Q1)|exact (Forall_inv_tail Q2)]|exact (Forall_inv_tail (J2 E))]. }
    assert (HR : forall wa id r wb more wc dc wd dd, sm_reply x = ReplySuccess id \/ sm_reply x = ReplyAlways id ->
      sound wa -> on_reply Out A wa e self id r = Ok (wb, more) -> go n' wb e (JSubs self more) = Ok (wc, dc) ->
      go n' wc e (JSubs self rest) = Ok (wd, dd) -> size wd < M64 -> treasury_kept A wd -> bal wa wd (job_pend (JSubs self rest)) /\ sound wd).
    { intros wa id r wb more wc dc wd dd HD Sa Hr Hg1 Hg2 Sd Kd.
      assert (NT : self <> tre_addr).
      { intros E. pose proof (Forall_inv (J2 E)) as Q. cbn beta in Q. destruct HD; congruence. }
      assert (SB : bal wa wb [] /\ sound wb /\ job_ok (JSubs self more) /\ job_pend (JSubs self more) = []).
      { pose proof (reply_log _ _ _ _ _ _ _ _ _ Hr) as RL.
        assert (RT : w_treasury wb = w_treasury wa).
        { destruct (reply_all Out A _ _ _ _ _ _ _ Hr) as [(Q & _)|[(Q & _)|Q]]; destruct Q as (_ & _ & _ & _ & _ & Q & _); apply Q; discriminate. }
        apply reply_cases in Hr. destruct Hr as [(-> & s' & Hr & ->)|(NC & Q)].
        - assert (id = 3) as ->. { destruct (J1 eq_refl) as (Q & _). pose proof (Forall_inv Q) as Q'. cbn beta in Q'. destruct HD as [E|E], Q' as [F|F]; congruence. }
          apply reply_3 in Hr. destruct Hr as [-> ->]. rewrite <- and_assoc. split; [|split; [split; intros; [split|]; constructor|reflexivity]].
          destruct (scene_wired A wa (w_ctl wa) (conj eq_refl eq_refl) (proj1 Sa)) as (Wb & Kb). apply still_sound; try assumption; reflexivity.
        - destruct (quiet_wired A _ _ Q (proj1 Sa)) as (Wb & Kb). rewrite <- and_assoc. split; [apply still_sound; try assumption; apply Q|].
          split; [exact (other_ok _ _ NC NT)|exact (subs_other _ _ NT NC)]. }
      destruct SB as (Bb & SDb & Jb & Eb). pose proof (go_size _ _ _ _ _ _ _ _ Hg2) as S2. destruct (go_log _ _ _ _ _ _ _ _ Hg2) as (l2 & L2).
      destruct (IH n' ltac:(lia) _ _ _ _ _ Hg1 SDb Jb ltac:(lia) (kept_back _ _ _ L2 Kd)) as (Bc & SDc). rewrite Eb in Bc.
      destruct (IH n' ltac:(lia) _ _ _ _ _ Hg2 SDc JR Sd Kd) as (Bd & SDd). split; [|exact SDd].
      exact (bal_after _ _ _ _ Bb (bal_after _ _ _ _ Bc Bd)). }
    destruct H as [(w1 & d1 & H1 & [(_ & H2)|(id & w2 & more & w3 & d3 & E & H2 & H3 & H4)])|(id & w2 & more & w3 & d3 & _ & E & H2 & H3 & H4)].
    + pose proof (go_size _ _ _ _ _ _ _ _ H2). destruct (go_log _ _ _ _ _ _ _ _ H2) as (l2 & L2).
      destruct (IH n' ltac:(lia) _ _ _ _ _ H1 HI I ltac:(lia) (kept_back _ _ _ L2 HK)) as (B1 & SD1).
      destruct (IH n' ltac:(lia) _ _ _ _ _ H2 SD1 JR HS HK) as (B2 & SD2). split; [|exact SD2]. exact (bal_trans _ _ _ _ _ B1 B2).
    + destruct (go_log _ _ _ _ _ _ _ _ H3) as (l3 & L3). destruct (go_log _ _ _ _ _ _ _ _ H4) as (l4 & L4). pose proof (reply_log _ _ _ _ _ _ _ _ _ H2) as RL.
      assert (L1 : w_log w' = (l4 ++ l3) ++ w_log w1) by (rewrite L4, L3, RL, app_assoc; reflexivity).
      assert (Z1 : size w1 < M64) by (revert HS; unfold size; rewrite L1, app_length; lia).
      destruct (IH n' ltac:(lia) _ _ _ _ _ H1 HI I Z1 (kept_back _ _ _ L1 HK)) as (B1 & SD1).
      destruct (HR _ _ _ _ _ _ _ _ _ E SD1 H2 H3 H4 HS HK) as (B2 & SD2). split; [|exact SD2]. exact (bal_trans _ _ _ _ _ B1 B2).
    + destruct (HR _ _ _ _ _ _ _ _ _ (or_intror E) HI H2 H3 H4 HS HK) as (B2 & SD2). split; [|exact SD2].
      assert (EP : job_pend (JSubs self (x :: rest)) = job_pend (JSubs self rest)).
      { cbn [job_pend flat_map]. replace (pend self (sm_msg x)) with (@nil cosmos_msg); [reflexivity|]. symmetry.
        destruct (N.eq_dec self tre_addr) as [Es|Nt]; [pose proof (Forall_inv (J2 Es)) as Q; cbn beta in Q; congruence|].
        destruct (N.eq_dec self ctl_addr) as [->|Nc]; [|exact (pend_other _ _ Nt Nc)]. rewrite pend_ctl.
        destruct (J1 eq_refl) as (_ & Q). pose proof (Forall_inv Q) as Q'. cbn beta in Q'. destruct Q' as [Q'|Q']; [exact Q'|congruence]. }
      rewrite EP. exact B2.
Qed.

Lemma run_obeyed ts : forall w : world, sound w -> size (world_run Out A w ts) < M64 -> treasury_kept A (world_run Out A w ts) ->
  bal w (world_run Out A w ts) [] /\ sound (world_run Out A w ts).
Proof.
  induction ts as [|t ts IH]; intros w HW HS HK.
  - split; [|exact HW]. unfold bal. rewrite app_nil_r. reflexivity.
  - change (world_run Out A w (t :: ts)) with (world_run Out A (world_step Out A w t) ts) in *. pose proof (run_size Out A ts (world_step Out A w t)) as S1.
    assert (LG : exists l, w_log (world_run Out A (world_step Out A w t) ts) = l ++ w_log (world_step Out A w t)).
    { clear. generalize (world_step Out A w t). induction ts as [|t' ts IH]; intros v; [exists []; reflexivity|].
      change (world_run Out A v (t' :: ts)) with (world_run Out A (world_step Out A v t') ts). destruct (IH (world_step Out A v t')) as (l & E).
      destruct (WorldRun.step_cases Out A v t') as [E1|(d & _ & H)]; [rewrite E1 in *; eauto|]. destruct (go_log _ _ _ _ _ _ _ _ H) as (l1 & E1).
      exists (l ++ l1). rewrite E, E1, app_assoc. reflexivity. }
    destruct LG as (l & LG).
    destruct (WorldRun.step_cases Out A w t) as [E|(d & Hd & H)]; [rewrite E in *; apply IH; assumption|].
    destruct (go_obeyed _ _ _ _ _ _ H HW I ltac:(lia) (kept_back _ _ _ LG HK)) as (B1 & SD1).
    destruct (IH _ SD1 HS HK) as (B2 & SD2). split; [|exact SD2]. cbn [job_pend] in B1.
    assert (N1 : tx_signer t <> tre_addr /\ tx_signer t <> ctl_addr).
    { split; intros E; rewrite E in Hd; revert Hd; unfold is_dao, dao_addrs; cbn; rewrite N.eqb_refl, ?Bool.orb_true_r; discriminate. }
    rewrite pend_other in B1 by tauto. exact (bal_after _ _ _ _ B1 B2).
Qed.

Lemma new_sound (w : world) : new_dao A w -> new_treasury A w -> sound w.
Proof.
  intros N (assets & nfts & HT). split; [exact (new_wired A w N)|]. split; [|split].
  - intros id Hid. unfold runs in Hid. rewrite (nd_log _ _ N) in Hid. destruct Hid.
  - intros id p Hp. rewrite (proj2 (new_records A w N)), oget_empty in Hp. discriminate.
  - unfold treasury_instantiate in HT. apply bind_ok in HT. destruct HT as (a & Ha & HT). apply bind_ok in HT. destruct HT as (t & H1 & H2).
    apply add_assets_frame in H1. apply add_nfts_frame in H2. unfold addr_validate in Ha. destruct (ctl_addr =? 0); [discriminate|]. injection Ha as <-.
    destruct H1 as (E1 & E2), H2 as (E3 & E4). split; [rewrite E3, E1; reflexivity|]. unfold fresh_old. rewrite E4, E2. reflexivity.
Qed.

End P.
