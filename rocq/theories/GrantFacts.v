(** Decisions to pay coins of the treasury: all or nothing. *)
From Verif Require Import Base OMap OMapLemmas Assets PollModel PollSpec PollProofs PollFacts FundsModel FundsSpec MemberModel MemberSpec Msgs
  ControllerModel ControllerSpec ControllerProofs ControllerFacts TreasuryModel TreasurySpec TreasuryFacts EnterpriseModel OutpostsModel WorldModel WorldSpec WorldProofs WorldRun WorldFacts
  LiftProofs LiftFacts LiveSpec LiveProofs LiveResults EndSpec RipeSpec RipeFacts PurseSpec OrderSpec AccessProofs FacadeSpec FacadeProofs BallotSpec RecountSpec MajoritySpec MajorityFacts
  EnactProofs EnactFacts ShelfFacts GrantSpec.

(** * What the payments change *)
Lemma pay_out_frame X (Out : outside X) A e to assets : forall w w2, pay_out Out A e to assets w = Ok w2 ->
  w2 = mk_world (w_enterprise w) (w_ctl w) (w_gov w) (w_member w) (w_council w) (w_funds w) (w_treasury w) (w_outposts w)
    (rev (flat_map (payment A to) assets) ++ w_log w) (w_upgraded w) (w_ext w2).
Proof.
  induction assets as [|[a n] l IH]; intros w w2 H.
  - injection H as <-. destruct w; reflexivity.
  - cbn [pay_out] in H. destruct a; try discriminate H. apply bind_ok in H. destruct H as (r & _ & H). apply IH in H. rewrite H at 1.
    cbn [flat_map payment fst snd app rev]. rewrite <- app_assoc. reflexivity.
Qed.

Lemma grants_exact X (Out : outside X) A e l : forall w w2, grants_paid Out A e l w = Ok w2 ->
  w2 = mk_world (w_enterprise w) (w_ctl w) (w_gov w) (w_member w) (w_council w) (w_funds w) (w_treasury w) (w_outposts w)
    (rev (flat_map (payments A) l) ++ w_log w) (w_upgraded w) (w_ext w2).
Proof.
  induction l as [|a l IH]; intros w w2 H.
  - injection H as <-. destruct w; reflexivity.
  - cbn [grants_paid] in H. destruct a; try discriminate H. destruct target; [discriminate H|]. apply bind_ok in H. destruct H as (w1 & H1 & H).
    apply IH in H. apply pay_out_frame in H1. rewrite H at 1. rewrite H1.
    cbn [flat_map payments w_enterprise w_ctl w_gov w_member w_council w_funds w_treasury w_outposts w_log w_upgraded w_ext note].
    f_equal. cbn [rev app]. rewrite rev_app_distr. cbn [rev]. rewrite <- !app_assoc. reflexivity.
Qed.

Section Grant.
Context {X : Type}.
Variable Out : outside X.
Variable A : addrs.
Hypothesis HA : NoDup (dao_addrs A).
Hypothesis HF : free_calls Out.
Notation world := (world X).

Definition as_result (r : res world) : res (world * option N) := w <- r ;; Ok (w, None).

Definition send_of (to : N) (x : asset * N) : sub_msg := plain (BankSend to [(match fst x with Native d => d | _ => 0 end, snd x)]).

Lemma spend_coins t to assets : coins_only assets -> spend t (tr_admin t) to assets = Ok (t, map (send_of to) assets).
Proof.
  intros H. unfold spend, tr_admin_only. rewrite N.eqb_refl. cbn [guard bind].
  assert (E : map_res (spend_msg to) assets = Ok (map (send_of to) assets)).
  { induction H as [|[a n] l Ha Hl IH]; [reflexivity|]. cbn [map_res]. destruct a; try (exfalso; exact Ha). unfold spend_msg at 1. cbn [fst snd check_asset bind transfer_msg].
    rewrite IH. reflexivity. }
  rewrite E. reflexivity.
Qed.

Lemma deliver_sends e to assets : coins_only assets -> exists k, forall n (w : world), (k <= n)%nat ->
  go Out A n w e (JSubs (a_treasury A) (map (send_of to) assets)) = as_result (pay_out Out A e to assets w).
Proof.
  induction 1 as [|[a m] l Ha Hl IH].
  - exists 1%nat. intros [|n] w L; [lia|]. reflexivity.
  - destruct IH as (k & IH). exists (S (S k)). intros n w L. destruct n as [|[|n]]; [lia|lia|]. destruct a; try (exfalso; exact Ha).
    cbn [map send_of fst snd pay_out]. unfold send_of at 1. cbn [fst snd].
    change (go Out A (S (S n)) w e (JSubs (a_treasury A) (plain (BankSend to [(denom, m)]) :: map (send_of to) l)))
      with (match go Out A (S n) w e (JMsg (a_treasury A) (BankSend to [(denom, m)])) with
            | Ok (w0, _) => go Out A (S n) w0 e (JSubs (a_treasury A) (map (send_of to) l))
            | Err EGas => Err EGas
            | Err x => Err x
            end).
    change (go Out A (S n) w e (JMsg (a_treasury A) (BankSend to [(denom, m)])))
      with (bind (x_msg Out (note w (a_treasury A) (BankSend to [(denom, m)])) e (a_treasury A) (BankSend to [(denom, m)]))
              (fun '(x, o) => Ok (set_ext (note w (a_treasury A) (BankSend to [(denom, m)])) x, o))).
    destruct (x_msg Out (note w (a_treasury A) (BankSend to [(denom, m)])) e (a_treasury A) (BankSend to [(denom, m)])) as [[x o]|x]; cbn [bind as_result].
    + rewrite IH by lia. reflexivity.
    + destruct x; reflexivity.
Qed.

Lemma deliver_grant e to assets : coins_only assets -> exists k, forall n (w : world), (k <= n)%nat -> tr_admin (w_treasury w) = a_controller A ->
  go Out A n w e (JMsg (a_controller A) (treasury_call A None (TrSpend to assets))) =
  as_result (pay_out Out A e to assets (note w (a_controller A) (treasury_call A None (TrSpend to assets)))).
Proof.
  intros H. destruct (deliver_sends e to assets H) as (k & Hk). exists (S k). intros n w L HT. destruct n as [|n]; [lia|]. assert (L1 : (k <= n)%nat) by lia.
  destruct (apart A HA) as (N1 & N2 & N3 & N4 & N5 & N6 & N7 & N8 & N9 & N10 & N11 & N12 & N13 & N14 & N15 & N16 & N17 & N18 & N19 & N20 & N21 & N22 & N23 & N24 & N25 & N26 & N27 & N28).
  unfold treasury_call. cbn [go]. set (w1 := note w (a_controller A) (WasmExecute (a_treasury A) (ToTreasury (TrSpend to assets)) [])).
  rewrite HF. cbn [bind]. assert (EX : set_ext w1 (w_ext w1) = w1) by reflexivity. rewrite EX. unfold handle.
  repeat match goal with |- context [a_treasury A =? ?b] =>
    lazymatch b with a_treasury A => fail | _ => rewrite (proj2 (N.eqb_neq (a_treasury A) b)) by (apply not_eq_sym; assumption) || rewrite (proj2 (N.eqb_neq (a_treasury A) b)) by assumption end end.
  rewrite N.eqb_refl. cbn [treasury_execute]. rewrite <- HT. change (w_treasury w1) with (w_treasury w). rewrite (spend_coins _ to assets H). cbn [bind].
  assert (ET : set_treasury w1 (w_treasury w) = w1) by reflexivity. rewrite ET, (Hk n w1 L1).
  destruct (pay_out Out A e to assets w1); reflexivity.
Qed.

Lemma deliver_grants e l : Forall grant l -> exists k, forall n (w : world), (k <= n)%nat -> tr_admin (w_treasury w) = a_controller A ->
  go Out A n w e (JSubs (a_controller A) (map plain (map (fun a => match a with PRequestFunding _ to assets => treasury_call A None (TrSpend to assets) | _ => run_order A 0 end) l))) =
  as_result (grants_paid Out A e l w).
Proof.
  induction 1 as [|a l Ha Hl IH].
  - exists 1%nat. intros [|n] w L _; [lia|]. reflexivity.
  - destruct IH as (k & IH). destruct a; try (exfalso; exact Ha). destruct target; [exfalso; exact Ha|]. cbn [grant] in Ha.
    match type of Ha with coins_only ?as_ => destruct (deliver_grant e to as_ Ha) as (k1 & H1); exists (S (k + k1)) end.
    intros n w L HT. destruct n as [|n]; [lia|]. cbn [map grants_paid go plain sm_msg sm_reply]. rewrite H1 by (assumption || lia).
    match goal with |- context [pay_out Out A e to ?as_ ?w1] => destruct (pay_out Out A e to as_ w1) as [w2|x] eqn:E end; cbn [as_result bind].
    + rewrite IH; [reflexivity|lia|]. apply pay_out_frame in E. rewrite E. exact HT.
    + destruct x; reflexivity.
Qed.

Lemma grants_run o att l : co_components o = Ok (wiring_of A att) -> Forall grant l -> forall s subs,
  fold_res (run_action_acc o) (s, subs) l = Ok (s, subs ++ map plain (map (fun a => match a with PRequestFunding _ to assets => treasury_call A None (TrSpend to assets) | _ => run_order A 0 end) l)).
Proof.
  intros HC H. induction H as [|a l Ha Hl IH]; intros s subs.
  - cbn. rewrite app_nil_r. reflexivity.
  - cbn [fold_res]. destruct a; try (exfalso; exact Ha); destruct target; try (exfalso; exact Ha);
    unfold run_action_acc at 1; cbn [fst snd run_action]; unfold to_treasury; rewrite HC; cbn [bind]; rewrite IH; cbn [map treasury_call];
    rewrite <- app_assoc; reflexivity.
Qed.

Lemma grants_take_effect (w : world) e id p : en_wired A (w_enterprise w) -> ct_enterprise (w_ctl w) = a_enterprise A -> tr_admin (w_treasury w) = a_controller A ->
  oget (ct_proposals (w_ctl w)) id = Some p -> Forall grant (pi_actions p) ->
  exists k, forall n, (k <= n)%nat -> go Out A n w e (JMsg (a_controller A) (run_order A id)) =
    as_result (grants_paid Out A e (pi_actions p) (note w (a_controller A) (run_order A id))).
Proof.
  intros F1 F2 F3 Hp HH. set (w1 := note w (a_controller A) (run_order A id)).
  destruct (deliver_grants e (pi_actions p) HH) as (k & Hk). exists (S k). intros n L. destruct n as [|n]; [lia|].
  unfold run_order at 1. cbn [go]. change (note w (a_controller A) (WasmExecute (a_controller A) (ToController (CExecuteActions id)) [])) with w1.
  rewrite HF. cbn [bind]. assert (EX : set_ext w1 (w_ext w1) = w1) by reflexivity. rewrite EX.
  unfold handle. rewrite N.eqb_refl. cbn [ctl_execute]. unfold execute_actions. rewrite N.eqb_refl. cbn [guard bind].
  change (w_ctl w1) with (w_ctl w). rewrite Hp. cbn [ok_or bind].
  destruct (components_wired A w1 F1) as (att & HC).
  rewrite (grants_run (ctl_oracle_of Out A w1) att (pi_actions p)); [|cbn; rewrite F2; exact HC|exact HH].
  cbn [bind app]. assert (E2 : set_ctl w1 (w_ctl w) = w1) by reflexivity. rewrite E2, (Hk n w1) by (exact F3 || lia).
  destruct (grants_paid Out A e (pi_actions p) w1); reflexivity.
Qed.

Lemma refused_as e id dep ab y (w1 w' : world) k0 x : (forall n, (k0 <= n)%nat -> go Out A n w1 e (JMsg (a_controller A) (run_order A id)) = Err x) -> x <> EGas ->
  concluded Out A e id dep (Passed ab y) w1 w' <-> exists k, go Out A k w1 e (JSubs (a_controller A) dep) = Ok (w', None).
Proof.
  intros H0 Hx. unfold concluded. split.
  - intros (w3 & (k & Hk) & k1 & [(d & H1)|(-> & _)]); [|eauto].
    apply (go_more Out A _ (k0 + k1)%nat) in H1; [|discriminate|lia]. rewrite H0 in H1 by lia. discriminate H1.
  - intros (k & Hk). exists w1. split; [eauto|]. exists k0. right. split; [reflexivity|]. exists x. split; [apply H0; lia|exact Hx].
Qed.

Lemma granted_as e id dep ab y (w1 w' : world) k0 due : (forall n, (k0 <= n)%nat -> go Out A n w1 e (JMsg (a_controller A) (run_order A id)) = as_result due) -> due <> Err EGas ->
  concluded Out A e id dep (Passed ab y) w1 w' <-> exists k, go Out A k (all_or_nothing due w1) e (JSubs (a_controller A) dep) = Ok (w', None).
Proof.
  intros H0 Hx. destruct due as [w2|x]; cbn [as_result bind all_or_nothing] in *.
  - exact (passed_as Out A e id dep ab y w1 w2 w' k0 (H0 k0 (le_n _))).
  - apply (refused_as e id dep ab y w1 w' k0 x H0). congruence.
Qed.
End Grant.

(** * For every history *)

Lemma grant_decision X (Out : outside X) A w0 ts w e s id p pl total ab y w' :
  new_dao A w0 -> tr_admin (w_treasury w0) = a_controller A -> free_calls Out -> w = world_run Out A w0 ts -> lasting w -> treasury_kept A w ->
  ripe Out A w e s id p pl total -> final_status pl total = Passed ab y -> Forall grant (pi_actions p) ->
  let j := judged A w e s id p pl total (Passed ab y) in
  let due := grants_paid Out A e (pi_actions p) (note j (a_controller A) (run_order A id)) in
  due <> Err EGas ->
  (exists gas d, go Out A gas w e (JMsg s (ask_resolution A id)) = Ok (w', d)) <->
  exists k, go Out A k (all_or_nothing due j) e (JSubs (a_controller A) (handed A p (Passed ab y))) = Ok (w', None).
Proof.
  intros N T F EW L K RP HV HH j due HD. destruct (lists_ready X Out A w0 ts w N T EW L K) as (W1 & W2 & W3).
  assert (Hp' : exists p', oget (ct_proposals (w_ctl j)) id = Some p' /\ pi_actions p' = pi_actions p).
  { eexists. unfold j. cbn. rewrite oget_oset, N.eqb_refl. split; reflexivity. }
  destruct Hp' as (p' & Hp' & Ea).
  destruct (grants_take_effect Out A (nd_addrs _ _ N) F j e id p' W1 W2 W3 Hp') as (k & Hk); [rewrite Ea; exact HH|]. rewrite Ea in Hk. fold due in Hk.
  rewrite (executable_exact X Out A w0 ts w e s id w' N F EW L).
  pose proof (granted_as Out A e id (handed A p (Passed ab y)) ab y j w' k due Hk HD) as PC.
  split.
  - intros (p2 & pl2 & t2 & v & RP2 & Hv & _ & HC).
    assert (p2 = p) by (pose proof (rp_proposal _ _ _ _ _ _ _ _ _ RP); pose proof (rp_proposal _ _ _ _ _ _ _ _ _ RP2); congruence). subst p2.
    assert (pl2 = pl) by (pose proof (rp_poll _ _ _ _ _ _ _ _ _ RP); pose proof (rp_poll _ _ _ _ _ _ _ _ _ RP2); congruence). subst pl2.
    assert (t2 = total) by (rewrite (rp_total _ _ _ _ _ _ _ _ _ RP), (rp_total _ _ _ _ _ _ _ _ _ RP2); reflexivity). subst t2.
    rewrite HV in Hv. subst v. apply PC. exact HC.
  - intros H. exists p, pl, total, (Passed ab y). split; [exact RP|]. split; [symmetry; exact HV|]. split; [intros _; split; discriminate|]. apply PC. exact H.
Qed.

Lemma grant_majority X (Out : outside X) A birth w0 before later id ends p pl pl' us e s w'' :
  new_dao A w0 -> tr_admin (w_treasury w0) = a_controller A -> free_calls Out -> created_by birth (w_member w0) -> created_by birth (w_council w0) -> timely birth (before ++ later) ->
  let w := world_run Out A w0 before in let w' := world_run Out A w0 (before ++ later) in
  lasting w -> lasting w' -> calm A w' -> treasury_kept A w' ->
  closing w General id ends -> oget (g_polls (w_gov w)) id = Some pl -> seconds_before ends before -> all_after ends later ->
  stand_for A w id [Yes] us -> winning w pl us ->
  oget (ct_proposals (w_ctl w')) id = Some p -> pi_executed_at p = None -> oget (g_polls (w_gov w')) id = Some pl' ->
  ends <= e_time e -> restricted_by Out A w' (a_enterprise A) s = Ok false ->
  Forall grant (pi_actions p) ->
  let v := Passed 0 (support A w id Yes) in let j := judged A w' e s id p pl' (weight_now w General) v in
  let due := grants_paid Out A e (pi_actions p) (note j (a_controller A) (run_order A id)) in
  due <> Err EGas ->
  (exists gas d, go Out A gas w' e (JMsg s (ask_resolution A id)) = Ok (w'', d)) <->
  exists k, go Out A k (all_or_nothing due j) e (JSubs (a_controller A) (handed A p v)) = Ok (w'', None).
Proof.
  intros HN T HFC B1 B2 HT w w' HLw HL HC HK HCl Hpl HB HAf HU HW Hp Hx Hpl' He Hr HH v j due HD.
  destruct (lists_ready X Out A w0 (before ++ later) w' HN T eq_refl HL HK) as (W1 & W2 & W3).
  assert (Hp' : exists p', oget (ct_proposals (w_ctl j)) id = Some p' /\ pi_actions p' = pi_actions p).
  { eexists. unfold j. cbn. rewrite oget_oset, N.eqb_refl. split; reflexivity. }
  destruct Hp' as (p' & Hp' & Ea).
  destruct (grants_take_effect Out A (nd_addrs _ _ HN) HFC j e id p' W1 W2 W3 Hp') as (k & Hk); [rewrite Ea; exact HH|]. rewrite Ea in Hk. fold due in Hk.
  pose proof (majority_executes X Out A birth w0 before later id ends p pl pl' us e s w'' HN HFC B1 B2 HT HLw HL HC HCl Hpl HB HAf HU HW Hp Hx Hpl' He Hr) as ME.
  cbn zeta in ME. fold w w' v in ME. fold j in ME.
  exact (iff_trans ME (granted_as Out A e id (handed A p v) 0 (support A w id Yes) j w'' k due Hk HD)).
Qed.
