(** The council of a DAO stays within its bounds. *)
From Verif Require Import Base OMap OMapLemmas Assets PollModel PollSpec FundsModel MemberModel MemberSpec Msgs ControllerModel ControllerSpec ControllerFacts
  TreasuryModel EnterpriseModel OutpostsModel WorldModel WorldSpec WorldProofs WorldRun LiftProofs LiftFacts FacadeSpec PurseSpec PurseProofs PurseFacts RuleSpec RuleFacts
  OrderSpec AbroadSpec AbroadFacts BoundsSpec.

Lemma powers_open a : council_power (action_type_of a) -> open_to_council a.
Proof. intros H. destruct a; inversion H; exact I. Qed.

Lemma council_actions X (Out : outside X) A w0 ts w id p :
  new_dao A w0 -> w = world_run Out A w0 ts -> oget (ct_proposals (w_ctl w)) id = Some p -> pi_type p = Council ->
  Forall open_to_council (pi_actions p).
Proof.
  intros HN HW Hp HT. destruct (controller_history X Out A w0 ts w HN HW) as (css & _ & E & _).
  destruct (nd_controller _ _ HN) as (e & t & g & council & tr & HI).
  apply Forall_forall. intros a Ha. apply powers_open.
  rewrite E in Hp. exact (proj2 (council_powers_bounded _ _ _ _ _ _ _ _ _ HI) id p a Hp HT Ha).
Qed.

Lemma concerns_general A k a : for_members k -> concerns A k a = true -> ~ open_to_council a.
Proof. intros F H O. destruct k; destruct F; destruct a; try destruct O; try discriminate H. Qed.

Lemma type_cases p : pi_type p = General \/ pi_type p = Council.
Proof. destruct (pi_type p); auto. Qed.

(** The rules, the council itself, what rewards take ... are changed by general proposals only. *)
Lemma members_settings (X : Type) (Out : outside X) A w0 ts1 ts2 w w' k :
  new_dao A w0 -> w = world_run Out A w0 ts1 -> w' = world_run Out A w ts2 -> lasting w' -> in_charge A k w -> for_members k ->
  unchanged k w w' \/
  exists id p a, ran_since A w w' id /\ oget (ct_proposals (w_ctl w')) id = Some p /\ pi_type p = General /\ In a (pi_actions p) /\ concerns A k a = true.
Proof.
  intros N H1 H2 L C F. destruct (settings_by_proposals X Out A w0 ts1 ts2 w w' k N H1 H2 L C) as [U|(id & p & a & R & P & I1 & I2)]; [left; exact U|right].
  assert (E : w' = world_run Out A w0 (ts1 ++ ts2)) by (subst; unfold world_run; rewrite fold_left_app; reflexivity).
  exists id, p, a. repeat (split; [assumption|]). split; [|auto].
  destruct (type_cases p) as [Q|Q]; [exact Q|]. pose proof (council_actions X Out A w0 _ w' id p N E P Q) as O. rewrite Forall_forall in O.
  destruct (concerns_general A k a F I2 (O _ I1)).
Qed.

Lemma council_orders A p : Forall open_to_council (pi_actions p) -> orders A p = [] /\ customs p = [].
Proof.
  intros H. unfold orders, customs. induction H as [|a l O _ IH]; [auto|]. destruct IH as (I1 & I2). cbn [flat_map]. rewrite I1, I2.
  destruct a; destruct O; auto.
Qed.

(** Whatever the treasury sends was ordered by a general proposal. *)
Lemma treasury_by_members (X : Type) (Out : outside X) A w0 ts w m :
  new_dao A w0 -> new_treasury A w0 -> w = world_run Out A w0 ts -> lasting w -> treasury_kept A w -> In m (sent_by (a_treasury A) w) ->
  exists id p, In id (runs A w) /\ oget (ct_proposals (w_ctl w)) id = Some p /\ pi_type p = General /\ In m (orders A p).
Proof.
  intros N T E L K Hm. apply (Permutation.Permutation_in m (treasury_exact X Out A w0 ts w N T E L K)) in Hm. unfold ordered in Hm.
  apply in_flat_map in Hm. destruct Hm as (id & Hid & Hm). unfold orders_of in Hm. destruct (oget (ct_proposals (w_ctl w)) id) as [p|] eqn:P; [|destruct Hm].
  exists id, p. repeat (split; [assumption|]). split; [|exact Hm]. destruct (type_cases p) as [Q|Q]; [exact Q|].
  pose proof (council_orders A p (council_actions X Out A w0 ts w id p N E P Q)) as (O & _). rewrite O in Hm. destruct Hm.
Qed.

(** Orders to treasuries on other chains: the council can only list assets and collections there. *)
Lemma abroad_by_members (X : Type) (Out : outside X) A w0 ts w sp sc d n receiver deadline t tm cs report before :
  new_dao A w0 -> outposts_instantiate (a_enterprise A) = Ok (w_outposts w0) -> w = world_run Out A w0 ts -> N.of_nat (length (w_log w)) < 2 ^ 64 ->
  sent_after (w_log w) (a_outposts A) (IbcTransfer sp sc d n receiver deadline (WasmExecute t (ToTreasury tm) cs) report) before ->
  lists_only tm \/ exists id p, In id (ran A before) /\ oget (ct_proposals (w_ctl w)) id = Some p /\ pi_type p = General.
Proof.
  intros N O E L S. destruct (orders_abroad X Out A w0 ts w _ _ _ _ _ _ _ _ _ _ _ N O E L S) as (tm' & x & coins & l & -> & (id & p & a & R & P & I1 & I2) & E2 & _).
  injection E2 as <-. destruct (type_cases p) as [Q|Q].
  - right. exists id, p. split; [|auto]. unfold ran in *. cbn [flat_map snd to_outposts]. exact R.
  - left. pose proof (council_actions X Out A w0 ts w id p N E P Q) as F. rewrite Forall_forall in F. specialize (F _ I1).
    unfold to_outposts in I2. destruct a; destruct F; cbn [commands] in I2; try discriminate I2.
    + unfold treasury_call in I2. destruct target; [injection I2 as -> _ _; exact I|discriminate I2].
    + unfold treasury_call in I2. destruct target; [injection I2 as -> _ _; exact I|discriminate I2].
Qed.

(** As long as only the council acts, those settings stay. *)
Lemma council_leaves (X : Type) (Out : outside X) A w0 ts1 ts2 w w' k :
  new_dao A w0 -> w = world_run Out A w0 ts1 -> w' = world_run Out A w ts2 -> lasting w' -> in_charge A k w -> for_members k -> council_rules A w w' ->
  unchanged k w w'.
Proof.
  intros N H1 H2 L C F R. destruct (members_settings X Out A w0 ts1 ts2 w w' k N H1 H2 L C F) as [U|(id & p & a & Q1 & Q2 & Q3 & _)]; [exact U|].
  rewrite (R _ _ Q1 Q2) in Q3. discriminate Q3.
Qed.

Lemma nothing_added {T} (a b : list T) n : (length a + length b)%nat = n -> length b = n -> a ++ b = b.
Proof. intros H1 H2. destruct a; [reflexivity|]. cbn [length] in H1. lia. Qed.
(** Nor does the treasury send anything. *)
Lemma council_spends_nothing (X : Type) (Out : outside X) A w0 ts1 ts2 w w' :
  new_dao A w0 -> new_treasury A w0 -> w = world_run Out A w0 ts1 -> w' = world_run Out A w ts2 -> lasting w' -> treasury_kept A w' -> council_rules A w w' ->
  sent_by (a_treasury A) w' = sent_by (a_treasury A) w.
Proof.
  intros N T H1 H2 (U & L) K R.
  assert (E : w' = world_run Out A w0 (ts1 ++ ts2)) by (subst; unfold world_run; rewrite fold_left_app; reflexivity).
  destruct (RuleProofs.run_log Out A ts2 w) as (l & EL). rewrite <- H2 in EL.
  pose proof (kept_back A w w' l EL K) as K0.
  assert (L0 : N.of_nat (length (w_log w)) < 2 ^ 64) by (rewrite EL, app_length in L; lia).
  assert (SW : size w < M64) by exact L0.
  assert (SW' : size w' < M64) by exact L.
  rewrite H1 in SW. destruct (run_ahead Out A (nd_addrs _ _ N) ts1 w0 (new_wired _ _ N) SW) as (HW & _).
  rewrite <- H1 in HW. rewrite H2 in SW'. destruct (run_ahead Out A (nd_addrs _ _ N) ts2 w HW SW') as (_ & (HK & _) & _). rewrite <- H2 in HK.
  assert (P' : Permutation.Permutation (sent_by (a_treasury A) w') (ordered A w')) by (exact (treasury_exact X Out A w0 _ w' N T E (conj U L) K)).
  assert (P0 : Permutation.Permutation (sent_by (a_treasury A) w) (ordered A w)).
  { rewrite H1 in *. destruct (run_obeyed Out A (nd_addrs _ _ N) ts1 w0 (new_sound A w0 N T) L0 K0) as (B & _).
    unfold bal in B. assert (E1 : sent_by (a_treasury A) w0 = []) by (unfold sent_by; rewrite (nd_log _ _ N); reflexivity).
    assert (E2 : ordered A w0 = []) by (unfold ordered, runs; rewrite (nd_log _ _ N); reflexivity). rewrite E1, E2, !app_nil_r in B. exact B. }
  assert (HP : forall id, In id (runs A w) -> exists p, oget (ct_proposals (w_ctl w)) id = Some p).
  { rewrite H1 in *. destruct (run_obeyed Out A (nd_addrs _ _ N) ts1 w0 (new_sound A w0 N T) L0 K0) as (_ & _ & P & _). exact P. }
  assert (Q : ordered A w' = ordered A w).
  { assert (RU : runs A w' = flat_map (fun x => match snd x with WasmExecute to (ToController (CExecuteActions i)) _ => if to =? a_controller A then [i] else [] | _ => [] end) l ++ runs A w)
      by (unfold runs; rewrite EL, flat_map_app; reflexivity).
    unfold ordered. rewrite RU, flat_map_app. rewrite (orders_kept A w w' (runs A w) HP HK).
    match goal with |- ?f ++ _ = _ => assert (Z : f = []) end; [|rewrite Z; reflexivity].
    match goal with |- flat_map _ ?g = [] => assert (Z : forall id, In id g -> ran_since A w w' id) end.
    { intros id Hid. apply in_flat_map in Hid. destruct Hid as ([s m] & Hx & Hm). cbn [snd] in Hm. destruct m; try destruct Hm. destruct m; try destruct Hm.
      destruct m; try destruct Hm. destruct (N.eqb_spec contract (a_controller A)) as [->|]; [|destruct Hm]. destruct Hm as [<-|[]].
      exists l, s, funds. auto. }
    revert Z. generalize (flat_map (fun x => match snd x with WasmExecute to (ToController (CExecuteActions i)) _ => if to =? a_controller A then [i] else [] | _ => [] end) l).
    intros ids Z. induction ids as [|id ids IH]; [reflexivity|]. cbn [flat_map]. rewrite IH by (intros i Hi; apply Z; right; exact Hi). rewrite app_nil_r.
    unfold orders_of. destruct (oget (ct_proposals (w_ctl w')) id) as [p|] eqn:P; [|reflexivity].
    pose proof (R id p (Z id (or_introl eq_refl)) P) as TY.
    exact (proj1 (council_orders A p (council_actions X Out A w0 _ w' id p N E P TY))). }
  rewrite Q in P'. apply Permutation.Permutation_length in P'. apply Permutation.Permutation_length in P0.
  unfold sent_by in *. rewrite EL, flat_map_app in *. rewrite app_length in P'.
  exact (nothing_added _ _ _ P' P0).
Qed.
