(** Inside a DAO every contract lives through a history of calls of its own. *)
From Verif Require Import Base OMap OMapLemmas Assets PollModel FundsModel FundsSpec MemberModel MemberSpec Msgs ControllerModel TreasuryModel
  EnterpriseModel OutpostsModel WorldModel WorldSpec WorldProofs WorldRun LiftSpec LiftProofs.

Ltac pbl H := apply bind_ok in H; let x := fresh "x" in let Hx := fresh "Hx" in destruct H as (x & Hx & H);
  repeat match type of x with (_ * _)%type => destruct x as [? x] end; cbn beta iota in H.

Section Instances.
Context {X : Type}.
Variable Out : outside X.
Variable A : addrs.
Hypothesis HA : NoDup (dao_addrs A).

Lemma apart : a_controller A <> a_governance A /\ a_controller A <> a_membership A /\ a_controller A <> a_council A /\ a_controller A <> a_funds A /\
  a_controller A <> a_treasury A /\ a_controller A <> a_enterprise A /\ a_controller A <> a_outposts A /\
  a_governance A <> a_membership A /\ a_governance A <> a_council A /\ a_governance A <> a_funds A /\
  a_governance A <> a_treasury A /\ a_governance A <> a_enterprise A /\ a_governance A <> a_outposts A /\
  a_membership A <> a_council A /\ a_membership A <> a_funds A /\
  a_membership A <> a_treasury A /\ a_membership A <> a_enterprise A /\ a_membership A <> a_outposts A /\
  a_council A <> a_funds A /\ a_council A <> a_treasury A /\ a_council A <> a_enterprise A /\ a_council A <> a_outposts A /\
  a_funds A <> a_treasury A /\ a_funds A <> a_enterprise A /\ a_funds A <> a_outposts A /\
  a_treasury A <> a_enterprise A /\ a_treasury A <> a_outposts A /\ a_enterprise A <> a_outposts A.
Proof.
  pose proof HA as H. unfold dao_addrs in H.
  repeat match goal with H : NoDup (_ :: _) |- _ => apply NoDup_cons_iff in H; destruct H as [? H]; cbn [In] in * end.
  repeat split; intros E; intuition congruence.
Qed.

(** Which of the contracts a handled message changes. *)
Definition others_same (w w1 : world X) (k : N) : Prop :=
  (k <> 0 -> w_ctl w1 = w_ctl w) /\ (k <> 1 -> w_gov w1 = w_gov w) /\ (k <> 2 -> w_member w1 = w_member w) /\ (k <> 3 -> w_council w1 = w_council w) /\
  (k <> 4 -> w_funds w1 = w_funds w) /\ (k <> 5 -> w_treasury w1 = w_treasury w) /\ (k <> 6 -> w_enterprise w1 = w_enterprise w) /\
  (k <> 7 -> w_outposts w1 = w_outposts w).

Ltac same := repeat split; intros; try reflexivity; try congruence.

Lemma handle_all n w e s to m coins w1 subs d : handle Out A n w e s to m coins = Ok (w1, subs, d) ->
  (to = a_controller A /\ others_same w w1 0 /\ exists cm, m = ToController cm /\
     ctl_execute (ctl_oracle_of Out A w) (a_controller A) (w_ctl w) e s coins cm = Ok (w_ctl w1, subs)) \/
  (to = a_governance A /\ others_same w w1 1 /\ exists gm, m = ToGovernance gm /\ gov_execute (w_gov w) e s gm = Ok (w_gov w1, d)) \/
  (to = a_membership A /\ others_same w w1 2 /\ exists mm outs, m = ToMembership mm /\
     member_execute (member_oracle_of Out A w (w_member w)) (w_member w) e s coins mm = Ok (w_member w1, outs)) \/
  (to = a_council A /\ others_same w w1 3 /\ exists mm outs, m = ToMembership mm /\
     member_execute (member_oracle_of Out A w (w_council w)) (w_council w) e s coins mm = Ok (w_council w1, outs)) \/
  (to = a_funds A /\ others_same w w1 4 /\ exists fm pays, m = ToFunds fm /\
     funds_execute (funds_oracle_of Out A n w) (w_funds w) s coins fm = Ok (w_funds w1, pays)) \/
  (to = a_treasury A /\ others_same w w1 5 /\ exists tm, m = ToTreasury tm /\ treasury_execute n (w_treasury w) s tm = Ok (w_treasury w1, subs)) \/
  (to = a_enterprise A /\ others_same w w1 6 /\ exists em, m = ToEnterprise em /\
     enterprise_execute (en_oracle_of Out A n w) (w_enterprise w) s em = Ok (w_enterprise w1, subs)) \/
  (to = a_outposts A /\ others_same w w1 7 /\ exists om, m = ToOutposts om /\
     outposts_execute (op_oracle_of Out A w) e (w_outposts w) s om = Ok (w_outposts w1, subs)) \/
  (~ In to (dao_addrs A) /\ others_same w w1 8).
Proof.
  unfold handle. intros H.
  destruct (N.eqb_spec to (a_controller A)) as [->|N1].
  { left. split; [reflexivity|]. destruct m; try discriminate. pbl H. inversion H; subst. split; [same|]. eauto. }
  destruct (N.eqb_spec to (a_governance A)) as [->|N2].
  { right; left. split; [reflexivity|]. destruct m; try discriminate. pbl H. inversion H; subst. split; [same|]. eauto. }
  destruct (N.eqb_spec to (a_membership A)) as [->|N3].
  { do 2 right; left. split; [reflexivity|]. destruct m; try discriminate. pbl H. inversion H; subst. split; [same|]. eauto. }
  destruct (N.eqb_spec to (a_council A)) as [->|N4].
  { do 3 right; left. split; [reflexivity|]. destruct m; try discriminate. pbl H. inversion H; subst. split; [same|]. eauto. }
  destruct (N.eqb_spec to (a_funds A)) as [->|N5].
  { do 4 right; left. split; [reflexivity|]. destruct m; try discriminate. pbl H. inversion H; subst. split; [same|]. eauto. }
  destruct (N.eqb_spec to (a_treasury A)) as [->|N6].
  { do 5 right; left. split; [reflexivity|]. destruct m; try discriminate. pbl H. inversion H; subst. split; [same|]. eauto. }
  destruct (N.eqb_spec to (a_enterprise A)) as [->|N7].
  { do 6 right; left. split; [reflexivity|]. destruct m; try discriminate. pbl H. inversion H; subst. split; [same|]. eauto. }
  destruct (N.eqb_spec to (a_outposts A)) as [->|N8].
  { do 7 right; left. split; [reflexivity|]. destruct m; try discriminate. pbl H. inversion H; subst. split; [same|]. eauto. }
  do 8 right. split; [unfold dao_addrs; cbn [In]; intuition congruence|]. pbl H.
  match type of H with context [match ?p with _ => _ end] => destruct p end. inversion H; subst. same.
Qed.

Lemma reply_all w e self id r w1 more : on_reply Out A w e self id r = Ok (w1, more) ->
  (others_same w w1 0 /\ ctl_reply (ctl_oracle_of Out A w) (a_controller A) (w_ctl w) e id r = Ok (w_ctl w1, more)) \/
  (others_same w w1 6 /\ enterprise_reply (w_enterprise w) id r = Ok (w_enterprise w1, more)) \/
  others_same w w1 8.
Proof.
  unfold on_reply. intros H.
  destruct (self =? a_controller A). { left. pbl H. inversion H; subst. split; [same|eauto]. }
  destruct (self =? a_enterprise A). { right; left. pbl H. inversion H; subst. split; [same|eauto]. }
  do 2 right. destruct (self =? a_treasury A).
  { pbl H. unfold treasury_reply in Hx. destruct (id =? 6); inversion Hx; subst. inversion H; subst. same. }
  destruct (is_dao A self); [discriminate|]. pbl H. inversion H; subst. same.
Qed.

Lemma other_all w e s m w1 d : other_msg Out A w e s m = Ok (w1, d) -> others_same w w1 8.
Proof.
  unfold other_msg. intros H.
  destruct m; try (destruct (is_dao A contract)); pbl H; inversion H; subst; try (same; fail).
  apply bind_ok in H. destruct H as (w2 & E & H). inversion H; subst. apply migrate_cases in E. destruct E; subst; same.
Qed.

Lemma same_ctl w w1 k : others_same w w1 k -> k <> 0 -> w_ctl w1 = w_ctl w. Proof. intros H. exact (proj1 H). Qed.
Lemma same_gov w w1 k : others_same w w1 k -> k <> 1 -> w_gov w1 = w_gov w. Proof. intros H. exact (proj1 (proj2 H)). Qed.
Lemma same_member w w1 k : others_same w w1 k -> k <> 2 -> w_member w1 = w_member w. Proof. intros H. exact (proj1 (proj2 (proj2 H))). Qed.
Lemma same_council w w1 k : others_same w w1 k -> k <> 3 -> w_council w1 = w_council w. Proof. intros H. exact (proj1 (proj2 (proj2 (proj2 H)))). Qed.
Lemma same_funds w w1 k : others_same w w1 k -> k <> 4 -> w_funds w1 = w_funds w.
Proof. intros H. exact (proj1 (proj2 (proj2 (proj2 (proj2 H))))). Qed.
Lemma same_treasury w w1 k : others_same w w1 k -> k <> 5 -> w_treasury w1 = w_treasury w.
Proof. intros H. exact (proj1 (proj2 (proj2 (proj2 (proj2 (proj2 H)))))). Qed.
Lemma same_enterprise w w1 k : others_same w w1 k -> k <> 6 -> w_enterprise w1 = w_enterprise w.
Proof. intros H. exact (proj1 (proj2 (proj2 (proj2 (proj2 (proj2 (proj2 H))))))). Qed.
Lemma same_outposts w w1 k : others_same w w1 k -> k <> 7 -> w_outposts w1 = w_outposts w.
Proof. intros H. exact (proj2 (proj2 (proj2 (proj2 (proj2 (proj2 (proj2 H))))))). Qed.

(** A message to contract number [k] concerns contract [a] only if that is where it goes. *)
Lemma elsewhere {T} (to a : addr) (x : list T) : to <> a -> [] = (if to =? a then x else []).
Proof. intros H. apply N.eqb_neq in H. unfold addr in *. rewrite H. reflexivity. Qed.
Lemma outsider to a : ~ In to (dao_addrs A) -> In a (dao_addrs A) -> to <> a.
Proof. intros H1 H2 ->. exact (H1 H2). Qed.

Ltac split_handle H := apply handle_all in H;
  destruct H as [(-> & HS & cm & -> & H)|[(-> & HS & cm & -> & H)|[(-> & HS & cm & outs & -> & H)|[(-> & HS & cm & outs & -> & H)|
    [(-> & HS & cm & pays & -> & H)|[(-> & HS & cm & -> & H)|[(-> & HS & cm & -> & H)|[(-> & HS & cm & -> & H)|(HI & HS)]]]]]]]].
Ltac different := first [match goal with HI : ~ In _ (dao_addrs A) |- _ => apply (outsider _ _ HI); unfold dao_addrs; cbn [In]; tauto end
  | let HAP := fresh in pose proof apart as HAP; decompose [and] HAP; assumption
  | let HAP := fresh in apply not_eq_sym; pose proof apart as HAP; decompose [and] HAP; assumption].
Ltac nothing L HS := exists []; split; [exact (L _ _ _ HS ltac:(discriminate))|split; [|constructor]].
Ltac rest L := match goal with HS : others_same _ _ _ |- _ => nothing L HS; apply elsewhere; different end.

Lemma gov_lift ts w : exists l css, w_log (world_run Out A w ts) = l ++ w_log w /\ during gc_env ts css /\
  w_gov (world_run Out A w ts) = gov_run (w_gov w) (concat css) /\
  map (fun c => (gc_sender c, ToGovernance (gc_msg c))) (concat css) = map ignoring_coins (flat_map (seen_by (a_governance A)) (rev l)).
Proof.
  destruct (run_passes Out A gov gov_call (addr * wasm_msg) w_gov gov_step (a_governance A) ignoring_coins
    (fun c => [(gc_sender c, ToGovernance (gc_msg c))]) (fun c e => gc_env c = e)) with (ts := ts) (w := w) as (l & css & H1 & H2 & H3 & H4).
  - intros n w0 e s to m coins w1 subs d H. split_handle H; try rest same_gov.
    exists [mk_gcall e s cm]. rewrite N.eqb_refl. cbn [fold_left flat_map app]. split; [unfold gov_step; cbn [gc_env gc_sender gc_msg]; rewrite H; reflexivity|].
    split; [reflexivity|]. constructor; [reflexivity|constructor].
  - intros w0 e self id r w1 more H. apply reply_all in H. destruct H as [(HS & H)|[(HS & H)|HS]]; nothing same_gov HS; reflexivity.
  - intros w0 e s m w1 d H. apply other_all in H. exact (same_gov _ _ _ H ltac:(discriminate)).
  - reflexivity.
  - reflexivity.
  - exists l, css. split; [exact H1|]. split; [exact H2|]. split; [exact H3|]. rewrite <- H4. clear. generalize (concat css). intros cs.
    induction cs as [|c cs IH]; [reflexivity|]. cbn [map flat_map app]. rewrite IH. reflexivity.
Qed.

Lemma flat_map_one {P Q} (f : P -> Q) l : flat_map (fun x => [f x]) l = map f l.
Proof. induction l as [|x l IH]; [reflexivity|]. cbn [map flat_map app]. rewrite IH. reflexivity. Qed.

Lemma member_lift ts w : exists l css, w_log (world_run Out A w ts) = l ++ w_log w /\ during mc_env ts css /\
  w_member (world_run Out A w ts) = member_run (w_member w) (concat css) /\
  map (fun c => (mc_sender c, ToMembership (mc_msg c), mc_coins c)) (concat css) = flat_map (seen_by (a_membership A)) (rev l).
Proof.
  destruct (run_passes Out A member_state member_call (addr * wasm_msg * list coin) w_member (fun st c => fst (member_step st c)) (a_membership A) (fun x => x)
    (fun c => [(mc_sender c, ToMembership (mc_msg c), mc_coins c)]) (fun c e => mc_env c = e)) with (ts := ts) (w := w) as (l & css & H1 & H2 & H3 & H4).
  - intros n w0 e s to m coins w1 subs d H. split_handle H; try rest same_member.
    exists [mk_mcall (member_oracle_of Out A w0 (w_member w0)) e s coins cm]. rewrite N.eqb_refl. cbn [fold_left flat_map app].
    split; [unfold member_step; cbn [mc_env mc_oracle mc_coins mc_sender mc_msg]; rewrite H; reflexivity|].
    split; [reflexivity|]. constructor; [reflexivity|constructor].
  - intros w0 e self id r w1 more H. apply reply_all in H. destruct H as [(HS & H)|[(HS & H)|HS]]; nothing same_member HS; reflexivity.
  - intros w0 e s m w1 d H. apply other_all in H. exact (same_member _ _ _ H ltac:(discriminate)).
  - reflexivity.
  - reflexivity.
  - exists l, css. split; [exact H1|]. split; [exact H2|]. split; [exact H3|]. rewrite flat_map_one in H4. rewrite H4. apply map_id.
Qed.

Lemma council_lift ts w : exists l css, w_log (world_run Out A w ts) = l ++ w_log w /\ during mc_env ts css /\
  w_council (world_run Out A w ts) = member_run (w_council w) (concat css) /\
  map (fun c => (mc_sender c, ToMembership (mc_msg c), mc_coins c)) (concat css) = flat_map (seen_by (a_council A)) (rev l).
Proof.
  destruct (run_passes Out A member_state member_call (addr * wasm_msg * list coin) w_council (fun st c => fst (member_step st c)) (a_council A) (fun x => x)
    (fun c => [(mc_sender c, ToMembership (mc_msg c), mc_coins c)]) (fun c e => mc_env c = e)) with (ts := ts) (w := w) as (l & css & H1 & H2 & H3 & H4).
  - intros n w0 e s to m coins w1 subs d H. split_handle H; try rest same_council.
    exists [mk_mcall (member_oracle_of Out A w0 (w_council w0)) e s coins cm]. rewrite N.eqb_refl. cbn [fold_left flat_map app].
    split; [unfold member_step; cbn [mc_env mc_oracle mc_coins mc_sender mc_msg]; rewrite H; reflexivity|].
    split; [reflexivity|]. constructor; [reflexivity|constructor].
  - intros w0 e self id r w1 more H. apply reply_all in H. destruct H as [(HS & H)|[(HS & H)|HS]]; nothing same_council HS; reflexivity.
  - intros w0 e s m w1 d H. apply other_all in H. exact (same_council _ _ _ H ltac:(discriminate)).
  - reflexivity.
  - reflexivity.
  - exists l, css. split; [exact H1|]. split; [exact H2|]. split; [exact H3|]. rewrite flat_map_one in H4. rewrite H4. apply map_id.
Qed.

Lemma funds_lift ts w : exists l cs, w_log (world_run Out A w ts) = l ++ w_log w /\
  w_funds (world_run Out A w ts) = fold_left (fun f c => fst (funds_step f c)) cs (w_funds w) /\
  map (fun c => (fc_sender c, ToFunds (fc_msg c), fc_coins c)) cs = flat_map (seen_by (a_funds A)) (rev l).
Proof.
  destruct (run_passes Out A funds funds_call (addr * wasm_msg * list coin) w_funds (fun st c => fst (funds_step st c)) (a_funds A) (fun x => x)
    (fun c => [(fc_sender c, ToFunds (fc_msg c), fc_coins c)]) (fun _ _ => True)) with (ts := ts) (w := w) as (l & css & H1 & H2 & H3 & H4).
  - intros n w0 e s to m coins w1 subs d H. split_handle H; try rest same_funds.
    exists [mk_fcall (funds_oracle_of Out A n w0) s coins cm]. rewrite N.eqb_refl. cbn [fold_left flat_map app].
    split; [unfold funds_step; cbn [fc_oracle fc_coins fc_sender fc_msg]; rewrite H; reflexivity|].
    split; [reflexivity|]. constructor; [exact I|constructor].
  - intros w0 e self id r w1 more H. apply reply_all in H. destruct H as [(HS & H)|[(HS & H)|HS]]; nothing same_funds HS; reflexivity.
  - intros w0 e s m w1 d H. apply other_all in H. exact (same_funds _ _ _ H ltac:(discriminate)).
  - reflexivity.
  - reflexivity.
  - exists l, (concat css). split; [exact H1|]. split; [exact H3|]. rewrite flat_map_one in H4. rewrite H4. apply map_id.
Qed.

Lemma treasury_run_fold cs : forall t, fst (treasury_run t cs) = fold_left (fun t c => fst (treasury_step t c)) cs t.
Proof.
  induction cs as [|c cs IH]; intros t; [reflexivity|]. cbn [treasury_run fold_left]. destruct (treasury_step t c) as [t1 m1] eqn:E. cbn [fst].
  rewrite <- IH. destruct (treasury_run t1 cs). reflexivity.
Qed.

Lemma treasury_lift ts w : exists l cs, w_log (world_run Out A w ts) = l ++ w_log w /\
  w_treasury (world_run Out A w ts) = fst (treasury_run (w_treasury w) cs) /\
  map (fun c => (tc_sender c, ToTreasury (tc_msg c))) cs = map ignoring_coins (flat_map (seen_by (a_treasury A)) (rev l)).
Proof.
  destruct (run_passes Out A treasury treasury_call (addr * wasm_msg) w_treasury (fun st c => fst (treasury_step st c)) (a_treasury A) ignoring_coins
    (fun c => [(tc_sender c, ToTreasury (tc_msg c))]) (fun _ _ => True)) with (ts := ts) (w := w) as (l & css & H1 & H2 & H3 & H4).
  - intros n w0 e s to m coins w1 subs d H. split_handle H; try rest same_treasury.
    exists [mk_tcall n s cm]. rewrite N.eqb_refl. cbn [fold_left flat_map app].
    split; [unfold treasury_step; cbn [tc_gas tc_sender tc_msg]; rewrite H; reflexivity|].
    split; [reflexivity|]. constructor; [exact I|constructor].
  - intros w0 e self id r w1 more H. apply reply_all in H. destruct H as [(HS & H)|[(HS & H)|HS]]; nothing same_treasury HS; reflexivity.
  - intros w0 e s m w1 d H. apply other_all in H. exact (same_treasury _ _ _ H ltac:(discriminate)).
  - reflexivity.
  - reflexivity.
  - exists l, (concat css). split; [exact H1|]. split; [rewrite treasury_run_fold; exact H3|].
    rewrite flat_map_one in H4. exact H4.
Qed.

Lemma outposts_lift ts w : exists l css, w_log (world_run Out A w ts) = l ++ w_log w /\ during oc_env ts css /\
  w_outposts (world_run Out A w ts) = op_run (w_outposts w) (concat css) /\
  map (fun c => (oc_sender c, ToOutposts (oc_msg c))) (concat css) = map ignoring_coins (flat_map (seen_by (a_outposts A)) (rev l)).
Proof.
  destruct (run_passes Out A outposts op_call (addr * wasm_msg) w_outposts op_step (a_outposts A) ignoring_coins
    (fun c => [(oc_sender c, ToOutposts (oc_msg c))]) (fun c e => oc_env c = e)) with (ts := ts) (w := w) as (l & css & H1 & H2 & H3 & H4).
  - intros n w0 e s to m coins w1 subs d H. split_handle H; try rest same_outposts.
    exists [mk_op_call (op_oracle_of Out A w0) e s cm]. rewrite N.eqb_refl. cbn [fold_left flat_map app].
    split; [unfold op_step, op_handle; cbn [oc_oracle oc_env oc_sender oc_msg]; rewrite H; reflexivity|].
    split; [reflexivity|]. constructor; [reflexivity|constructor].
  - intros w0 e self id r w1 more H. apply reply_all in H. destruct H as [(HS & H)|[(HS & H)|HS]]; nothing same_outposts HS; reflexivity.
  - intros w0 e s m w1 d H. apply other_all in H. exact (same_outposts _ _ _ H ltac:(discriminate)).
  - reflexivity.
  - reflexivity.
  - exists l, css. split; [exact H1|]. split; [exact H2|]. split; [exact H3|]. rewrite flat_map_one in H4. exact H4.
Qed.

Lemma ctl_lift ts w : exists l css, w_log (world_run Out A w ts) = l ++ w_log w /\ during cc_env ts css /\
  w_ctl (world_run Out A w ts) = ctl_run (a_controller A) (w_ctl w) (concat css) /\
  flat_map ctl_calls (concat css) = flat_map (seen_by (a_controller A)) (rev l).
Proof.
  destruct (run_passes Out A ctl ControllerModel.ctl_call (addr * wasm_msg * list coin) w_ctl (fun s c => fst (ctl_step (a_controller A) s c)) (a_controller A) (fun x => x)
    ctl_calls (fun c e => cc_env c = e)) with (ts := ts) (w := w) as (l & css & H1 & H2 & H3 & H4).
  - intros n w0 e s to m coins w1 subs d H. split_handle H; try rest same_ctl.
    exists [mk_ccall (ctl_oracle_of Out A w0) e (CallCtl s coins cm)]. rewrite N.eqb_refl. cbn [fold_left flat_map app].
    split; [unfold ctl_step, ctl_handle; cbn [cc_oracle cc_env cc_event]; rewrite H; reflexivity|].
    split; [reflexivity|]. constructor; [reflexivity|constructor].
  - intros w0 e self id r w1 more H. apply reply_all in H. destruct H as [(HS & H)|[(HS & H)|HS]]; try (nothing same_ctl HS; reflexivity).
    exists [mk_ccall (ctl_oracle_of Out A w0) e (ReplyCtl id r)]. cbn [fold_left flat_map app].
    split; [unfold ctl_step, ctl_handle; cbn [cc_oracle cc_env cc_event]; rewrite H; reflexivity|].
    split; [reflexivity|]. constructor; [reflexivity|constructor].
  - intros w0 e s m w1 d H. apply other_all in H. exact (same_ctl _ _ _ H ltac:(discriminate)).
  - reflexivity.
  - reflexivity.
  - exists l, css. split; [exact H1|]. split; [exact H2|]. split; [exact H3|]. rewrite H4. apply map_id.
Qed.

Lemma enterprise_lift ts w : exists l cs, w_log (world_run Out A w ts) = l ++ w_log w /\
  w_enterprise (world_run Out A w ts) = en_run (w_enterprise w) cs /\
  flat_map en_calls cs = map ignoring_coins (flat_map (seen_by (a_enterprise A)) (rev l)).
Proof.
  destruct (run_passes Out A enterprise en_event (addr * wasm_msg) w_enterprise en_step (a_enterprise A) ignoring_coins
    en_calls (fun _ _ => True)) with (ts := ts) (w := w) as (l & css & H1 & H2 & H3 & H4).
  - intros n w0 e s to m coins w1 subs d H. split_handle H; try rest same_enterprise.
    exists [EvCall (en_oracle_of Out A n w0) s cm]. rewrite N.eqb_refl. cbn [fold_left flat_map app].
    split; [unfold en_step; cbn [en_handle]; rewrite H; reflexivity|].
    split; [reflexivity|]. constructor; [exact I|constructor].
  - intros w0 e self id r w1 more H. apply reply_all in H. destruct H as [(HS & H)|[(HS & H)|HS]]; try (nothing same_enterprise HS; reflexivity).
    exists [EvReply id r]. cbn [fold_left flat_map app].
    split; [unfold en_step; cbn [en_handle]; rewrite H; reflexivity|].
    split; [reflexivity|]. constructor; [exact I|constructor].
  - intros w0 e s m w1 d H. apply other_all in H. exact (same_enterprise _ _ _ H ltac:(discriminate)).
  - reflexivity.
  - reflexivity.
  - exists l, (concat css). split; [exact H1|]. split; [exact H3|]. exact H4.
Qed.
End Instances.

Lemma log_new X (A : addrs) (w0 w : world X) l : new_dao A w0 -> w_log w = l ++ w_log w0 -> l = w_log w.
Proof. intros N E. rewrite E, (nd_log _ _ N), app_nil_r. reflexivity. Qed.

Lemma governance_history X (Out : outside X) A w0 ts w : new_dao A w0 -> w = world_run Out A w0 ts ->
  exists css, during gc_env ts css /\ w_gov w = gov_run (w_gov w0) (concat css) /\
    map (fun c => (gc_sender c, ToGovernance (gc_msg c))) (concat css) = map ignoring_coins (received (a_governance A) w).
Proof.
  intros N ->. destruct (gov_lift Out A (nd_addrs _ _ N) ts w0) as (l & css & H1 & H2 & H3 & H4). exists css. apply (log_new X A w0 _ _ N) in H1. subst l. auto.
Qed.
Lemma membership_history X (Out : outside X) A w0 ts w : new_dao A w0 -> w = world_run Out A w0 ts ->
  exists css, during mc_env ts css /\ w_member w = member_run (w_member w0) (concat css) /\
    map (fun c => (mc_sender c, ToMembership (mc_msg c), mc_coins c)) (concat css) = received (a_membership A) w.
Proof.
  intros N ->. destruct (member_lift Out A (nd_addrs _ _ N) ts w0) as (l & css & H1 & H2 & H3 & H4). exists css. apply (log_new X A w0 _ _ N) in H1. subst l. auto.
Qed.
Lemma council_history X (Out : outside X) A w0 ts w : new_dao A w0 -> w = world_run Out A w0 ts ->
  exists css, during mc_env ts css /\ w_council w = member_run (w_council w0) (concat css) /\
    map (fun c => (mc_sender c, ToMembership (mc_msg c), mc_coins c)) (concat css) = received (a_council A) w.
Proof.
  intros N ->. destruct (council_lift Out A (nd_addrs _ _ N) ts w0) as (l & css & H1 & H2 & H3 & H4). exists css. apply (log_new X A w0 _ _ N) in H1. subst l. auto.
Qed.
Lemma funds_history X (Out : outside X) A w0 ts w : new_dao A w0 -> w = world_run Out A w0 ts ->
  exists cs, w_funds w = b_funds (books_run (w_funds w0) cs) /\
    map (fun c => (fc_sender c, ToFunds (fc_msg c), fc_coins c)) cs = received (a_funds A) w.
Proof.
  intros N ->. destruct (funds_lift Out A (nd_addrs _ _ N) ts w0) as (l & cs & H1 & H3 & H4). exists cs. apply (log_new X A w0 _ _ N) in H1. subst l.
  split; [|exact H4]. rewrite H3. unfold books_run.
  assert (G : forall cs b, b_funds (fold_left books_step cs b) = fold_left (fun f c => fst (funds_step f c)) cs (b_funds b)).
  { clear. induction cs as [|c cs IH]; intros b; [reflexivity|]. cbn [fold_left]. rewrite IH. reflexivity. }
  symmetry. apply G.
Qed.
Lemma treasury_history X (Out : outside X) A w0 ts w : new_dao A w0 -> w = world_run Out A w0 ts ->
  exists cs, w_treasury w = fst (treasury_run (w_treasury w0) cs) /\
    map (fun c => (tc_sender c, ToTreasury (tc_msg c))) cs = map ignoring_coins (received (a_treasury A) w).
Proof.
  intros N ->. destruct (treasury_lift Out A (nd_addrs _ _ N) ts w0) as (l & cs & H1 & H3 & H4). exists cs. apply (log_new X A w0 _ _ N) in H1. subst l. auto.
Qed.
Lemma outposts_history X (Out : outside X) A w0 ts w : new_dao A w0 -> w = world_run Out A w0 ts ->
  exists css, during oc_env ts css /\ w_outposts w = op_run (w_outposts w0) (concat css) /\
    map (fun c => (oc_sender c, ToOutposts (oc_msg c))) (concat css) = map ignoring_coins (received (a_outposts A) w).
Proof.
  intros N ->. destruct (outposts_lift Out A (nd_addrs _ _ N) ts w0) as (l & css & H1 & H2 & H3 & H4). exists css. apply (log_new X A w0 _ _ N) in H1. subst l. auto.
Qed.
Lemma controller_history X (Out : outside X) A w0 ts w : new_dao A w0 -> w = world_run Out A w0 ts ->
  exists css, during cc_env ts css /\ w_ctl w = ctl_run (a_controller A) (w_ctl w0) (concat css) /\
    flat_map ctl_calls (concat css) = received (a_controller A) w.
Proof.
  intros N ->. destruct (ctl_lift Out A (nd_addrs _ _ N) ts w0) as (l & css & H1 & H2 & H3 & H4). exists css. apply (log_new X A w0 _ _ N) in H1. subst l. auto.
Qed.
Lemma enterprise_history X (Out : outside X) A w0 ts w : new_dao A w0 -> w = world_run Out A w0 ts ->
  exists cs, w_enterprise w = en_run (w_enterprise w0) cs /\ flat_map en_calls cs = map ignoring_coins (received (a_enterprise A) w).
Proof.
  intros N ->. destruct (enterprise_lift Out A (nd_addrs _ _ N) ts w0) as (l & cs & H1 & H3 & H4). exists cs. apply (log_new X A w0 _ _ N) in H1. subst l. auto.
Qed.
