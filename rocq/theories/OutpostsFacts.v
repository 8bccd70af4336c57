(** The facts about the outposts contract and the bridge callback proxy, in the form of the properties. *)
From Verif Require Import Base OMap OMapLemmas Assets MemberModel Msgs TreasurySpec TreasuryProofs OutpostsModel OutpostsSpec.

Lemma op_controller_only_iff o sender : (exists x, op_controller_only o sender = Ok x) <-> sent_by_controller o sender.
Proof.
  unfold op_controller_only, sent_by_controller, guard. destruct (oo_components o) as [c|er]; cbn [bind].
  - destruct (N.eqb_spec sender (c_controller c)); split; intros (x & H); try discriminate; eauto.
    destruct H as [H1 H2]. inversion H1; subst. contradiction.
  - split; intros (x & H); [discriminate|destruct H; discriminate].
Qed.
Lemma op_controller_only_ok o sender : sent_by_controller o sender -> op_controller_only o sender = Ok tt.
Proof. intros H. apply op_controller_only_iff in H. destruct H as ([] & H). exact H. Qed.

Lemma to_proxy_iff o e m proxy x id out : to_proxy o e m proxy x id = Ok out <-> asks o e proxy m x id out.
Proof.
  unfold to_proxy, asks, ts_plus_nanos, uint64_add.
  change (15 * 60 * 1000000000) with 900000000000.
  destruct (N.ltb_spec (e_time e + dflt 900000000000 (x_timeout x)) M64); cbn [bind]; split.
  - intros E. inversion E; subst. split; [assumption|]. destruct id; reflexivity.
  - intros (_ & ->). destruct id; reflexivity.
  - discriminate.
  - intros (L & _). lia.
Qed.

Definition put (s : outposts) (cb : callback) : outposts :=
  mk_outposts (op_enterprise s) (op_proxies s) (op_treasuries s) (oset (op_callbacks s) (next_id (op_last s)) cb)
    (next_id (op_last s)).

Lemma remote_iff o e s code gp proxy assets nfts x s' m :
  instantiate_remote_treasury o e s code gp proxy assets nfts x = Ok (s', m) <->
  s' = put s (mk_callback x gp (CbTreasury x)) /\
  asks o e gp (WasmInstantiate (Some proxy) code (InitTreasury proxy assets nfts)) x (Some (next_id (op_last s))) m.
Proof.
  unfold instantiate_remote_treasury. change (u32_add (op_last s) 1) with (next_id (op_last s)).
  destruct (to_proxy _ _ _ _ _ _) as [y|er] eqn:E; cbn [bind].
  - apply to_proxy_iff in E. split.
    + intros H. inversion H; subst. split; [reflexivity|exact E].
    + intros (-> & Hm). apply to_proxy_iff in E, Hm. rewrite E in Hm. inversion Hm. reflexivity.
  - split; [discriminate|]. intros (_ & Hm). apply to_proxy_iff in Hm. rewrite E in Hm. discriminate.
Qed.

(** An order to deploy. *)
Lemma deploy_iff o e s sender d s' out :
  outposts_execute o e s sender (OpDeploy d) = Ok (s', out) <->
  sent_by_controller o sender /\ oget (op_treasuries s) (x_chain (dt_spec d)) = None /\
  exists cb m order, out = [m] /\
    asks o e (dt_global_proxy d) order (dt_spec d) (Some (next_id (op_last s))) m /\
    s' = mk_outposts (op_enterprise s) (op_proxies s) (op_treasuries s) (oset (op_callbacks s) (next_id (op_last s)) cb)
           (next_id (op_last s)) /\
    match oget (op_proxies s) (x_chain (dt_spec d)) with
    | Some proxy => order = WasmInstantiate (Some proxy) (dt_treasury_code d) (InitTreasury proxy (dt_assets d) (dt_nfts d)) /\
        cb = mk_callback (dt_spec d) (dt_global_proxy d) (CbTreasury (dt_spec d))
    | None => exists owner, oo_derive o (x_dest_channel (dt_spec d)) (oo_self o) (x_prefix (dt_spec d)) = Ok owner /\
        order = WasmInstantiate None (dt_proxy_code d) (InitProxy owner) /\
        cb = mk_callback (dt_spec d) (dt_global_proxy d) (CbProxy d)
    end.
Proof.
  cbn [outposts_execute]. unfold op_deploy. split.
  - intros H. apply bind_ok in H. destruct H as ([] & Hc & H).
    assert (Hs : sent_by_controller o sender) by (apply op_controller_only_iff; eauto). split; [exact Hs|].
    unfold ohas, guard in H. destruct (oget (op_treasuries s) _) eqn:Et; [discriminate|]. cbn [is_some negb bind] in H.
    split; [reflexivity|].
    destruct (oget (op_proxies s) _) as [proxy|] eqn:Ep.
    + destruct (instantiate_remote_treasury _ _ _ _ _ _ _ _ _) as [[s1 m]|er] eqn:E; [|discriminate].
      cbn [bind] in H. inversion H; subst. apply remote_iff in E. destruct E as (-> & E).
      eexists. exists m. eexists. split; [reflexivity|]. split; [exact E|]. split; [reflexivity|]. split; reflexivity.
    + cbn zeta in H. apply bind_ok in H. destruct H as (owner & Ho & H). apply bind_ok in H. destruct H as (m & Hm & H).
      inversion H; subst. apply to_proxy_iff in Hm.
      eexists. exists m. eexists. split; [reflexivity|]. split; [exact Hm|]. split; [reflexivity|]. exists owner. auto.
  - intros (Hs & Et & cb & m & order & -> & Ha & -> & Hcase).
    rewrite (op_controller_only_ok _ _ Hs). cbn [bind]. unfold ohas, guard. rewrite Et. cbn [is_some negb bind].
    destruct (oget (op_proxies s) _) as [proxy|] eqn:Ep.
    + destruct Hcase as (-> & ->).
      assert (E : instantiate_remote_treasury o e s (dt_treasury_code d) (dt_global_proxy d) proxy (dt_assets d) (dt_nfts d) (dt_spec d) =
                  Ok (put s (mk_callback (dt_spec d) (dt_global_proxy d) (CbTreasury (dt_spec d))), m)) by (apply remote_iff; auto).
      rewrite E. reflexivity.
    + destruct Hcase as (owner & Ho & -> & ->). cbn zeta. rewrite Ho. cbn [bind].
      apply to_proxy_iff in Ha. change (u32_add (op_last s) 1) with (next_id (op_last s)). rewrite Ha. reflexivity.
Qed.

(** An order to a remote treasury. *)
Lemma remote_order_iff o e s sender m x s' out :
  outposts_execute o e s sender (OpExecute m x) = Ok (s', out) <->
  sent_by_controller o sender /\ s' = s /\
  exists proxy treasury y, oget (op_proxies s) (x_chain x) = Some proxy /\ oget (op_treasuries s) (x_chain x) = Some treasury /\
    out = [y] /\ asks o e proxy (WasmExecute treasury (ToTreasury m) []) x None y.
Proof.
  cbn [outposts_execute]. unfold op_execute_treasury. split.
  - intros H. apply bind_ok in H. destruct H as ([] & Hc & H).
    split; [apply op_controller_only_iff; eauto|].
    destruct (oget (op_proxies s) _) as [proxy|]; [|discriminate]. destruct (oget (op_treasuries s) _) as [tr|]; [|discriminate].
    cbn [ok_or bind] in H. apply bind_ok in H. destruct H as (y & Hy & H). inversion H; subst. split; [reflexivity|].
    exists proxy, tr, y. split; [reflexivity|]. split; [reflexivity|]. split; [reflexivity|]. apply to_proxy_iff. exact Hy.
  - intros (Hs & -> & proxy & tr & y & Hp & Ht & -> & Ha). rewrite (op_controller_only_ok _ _ Hs), Hp, Ht. cbn [bind ok_or].
    apply to_proxy_iff in Ha. rewrite Ha. reflexivity.
Qed.

(** A report. *)
Lemma callback_iff o e s sender id a s' out :
  outposts_execute o e s sender (OpCallback id a) = Ok (s', out) <->
  exists cb created wiring, oget (op_callbacks s) id = Some cb /\
    oo_derive o (x_src_channel (cb_spec cb)) (cb_proxy cb) TERRA = Ok sender /\ sender <> 0 /\
    a = Some created /\ oo_components o = Ok wiring /\
    match cb_type cb with
    | CbProxy d => oget (op_proxies s) (x_chain (cb_spec cb)) = None /\
        s' = mk_outposts (op_enterprise s) (oset (op_proxies s) (x_chain (cb_spec cb)) created) (op_treasuries s)
               (oset (odel (op_callbacks s) id) (next_id (op_last s)) (mk_callback (dt_spec d) (cb_proxy cb) (CbTreasury (dt_spec d))))
               (next_id (op_last s)) /\
        exists m, out = [m] /\
          asks o e (cb_proxy cb) (WasmInstantiate (Some created) (dt_treasury_code d) (InitTreasury created (dt_assets d) (dt_nfts d)))
            (dt_spec d) (Some (next_id (op_last s))) m
    | CbTreasury _ => oget (op_treasuries s) (x_chain (cb_spec cb)) = None /\
        s' = mk_outposts (op_enterprise s) (op_proxies s) (oset (op_treasuries s) (x_chain (cb_spec cb)) created)
               (odel (op_callbacks s) id) (op_last s) /\
        out = []
    end.
Proof.
  cbn [outposts_execute]. unfold op_callback. split.
  - intros H. destruct (oget (op_callbacks s) id) as [cb|] eqn:Ecb; [|discriminate]. cbn [ok_or bind] in H.
    apply bind_ok in H. destruct H as (dv & Hd & H). apply bind_ok in H. destruct H as (ex & Hx & H).
    apply addr_validate_ok in Hx. destruct Hx as (-> & Hnz).
    unfold guard in H. destruct (N.eqb_spec sender ex) as [->|]; [|discriminate]. cbn [bind] in H.
    destruct (cb_type cb) as [d|x] eqn:Ety; cbn zeta in H.
    + destruct a as [created|]; [|discriminate]. cbn [ok_or bind] in H.
      unfold add_proxy, ohas, guard in H. cbn [op_proxies] in H.
      destruct (oget (op_proxies s) _) eqn:Ep; [discriminate|]. cbn [is_some negb bind] in H.
      destruct (instantiate_remote_treasury _ _ _ _ _ _ _ _ _) as [[s1 m]|er] eqn:E; [|discriminate]. cbn [bind] in H.
      apply bind_ok in H. destruct H as (w & Hw & H). inversion H; subst.
      apply remote_iff in E. destruct E as (-> & E).
      exists cb, created, w. rewrite Ety. do 5 (split; [auto|]). split; [exact Ep|]. split; [reflexivity|].
      exists m. split; [reflexivity|exact E].
    + destruct a as [created|]; [|discriminate]. cbn [ok_or bind] in H.
      unfold add_treasury, ohas, guard in H. cbn [op_treasuries] in H.
      destruct (oget (op_treasuries s) _) eqn:Ep; [discriminate|]. cbn [is_some negb bind] in H.
      apply bind_ok in H. destruct H as (w & Hw & H). inversion H; subst.
      exists cb, created, w. rewrite Ety. do 5 (split; [auto|]). split; [exact Ep|]. split; reflexivity.
  - intros (cb & created & w & Ecb & Hd & Hnz & -> & Hw & Hcase). rewrite Ecb. cbn [ok_or bind]. rewrite Hd. cbn [bind].
    unfold addr_validate, guard. unfold addr in *. destruct (N.eqb_spec sender 0); [contradiction|]. cbn [bind].
    rewrite N.eqb_refl. cbn [bind]. destruct (cb_type cb) as [d|x].
    + destruct Hcase as (Ep & -> & m & -> & Ha). unfold add_proxy, ohas, guard. cbn [op_proxies]. rewrite Ep. cbn [is_some negb bind].
      match goal with |- context [instantiate_remote_treasury ?o ?e ?s ?c ?g ?p ?aa ?nn ?x] =>
        assert (E : instantiate_remote_treasury o e s c g p aa nn x = Ok (put s (mk_callback x g (CbTreasury x)), m)) by
          (apply remote_iff; split; [reflexivity|exact Ha]) end.
      rewrite E. cbn [bind]. rewrite Hw. reflexivity.
    + destruct Hcase as (Et & -> & ->). unfold add_treasury, ohas, guard. cbn [op_treasuries]. rewrite Et. cbn [is_some negb bind].
      rewrite Hw. reflexivity.
Qed.

(** ** Histories *)
Lemma op_run_app s l1 l2 : op_run s (l1 ++ l2) = op_run (op_run s l1) l2.
Proof. apply fold_left_app. Qed.
Lemma op_run_snoc s l c : op_run s (l ++ [c]) = op_step (op_run s l) c.
Proof. rewrite op_run_app. reflexivity. Qed.
Lemma op_step_ok s c s' out : op_handle s c = Ok (s', out) -> op_step s c = s'.
Proof. intros H. unfold op_step. rewrite H. reflexivity. Qed.
Lemma op_step_err s c er : op_handle s c = Err er -> op_step s c = s.
Proof. intros H. unfold op_step. rewrite H. reflexivity. Qed.

(** What one accepted call can do to the records. *)
Lemma op_changes s c s' out : op_handle s c = Ok (s', out) ->
  op_enterprise s' = op_enterprise s /\
  (forall ch p, oget (op_proxies s) ch = Some p -> oget (op_proxies s') ch = Some p) /\
  (forall ch t, oget (op_treasuries s) ch = Some t -> oget (op_treasuries s') ch = Some t).
Proof.
  destruct c as [o e sender m]. unfold op_handle. cbn [oc_oracle oc_env oc_sender oc_msg]. intros H.
  destruct m as [d|m x|id a].
  - apply deploy_iff in H. destruct H as (_ & _ & cb & m & order & _ & _ & -> & _). cbn. auto.
  - apply remote_order_iff in H. destruct H as (_ & -> & _). auto.
  - apply callback_iff in H. destruct H as (cb & created & w & _ & _ & _ & _ & _ & H).
    destruct (cb_type cb) as [d|x].
    + destruct H as (Ep & -> & _). cbn. split; [reflexivity|]. split; [|auto]. intros ch p Hp.
      rewrite oget_oset. destruct (N.eqb_spec (x_chain (cb_spec cb)) ch) as [<-|]; [congruence|exact Hp].
    + destruct H as (Ep & -> & _). cbn. split; [reflexivity|]. split; [auto|]. intros ch p Hp.
      rewrite oget_oset. destruct (N.eqb_spec (x_chain (cb_spec cb)) ch) as [<-|]; [congruence|exact Hp].
Qed.

(** Records stay. *)
Lemma records_kept s l :
  op_enterprise (op_run s l) = op_enterprise s /\
  (forall ch p, oget (op_proxies s) ch = Some p -> oget (op_proxies (op_run s l)) ch = Some p) /\
  (forall ch t, oget (op_treasuries s) ch = Some t -> oget (op_treasuries (op_run s l)) ch = Some t).
Proof.
  revert s. induction l as [|c l IH]; intros s; [cbn; auto|].
  change (op_run s (c :: l)) with (op_run (op_step s c) l). destruct (IH (op_step s c)) as (A & B & C).
  destruct (op_handle s c) as [[s' out]|er] eqn:E.
  - rewrite (op_step_ok _ _ _ _ E) in *. destruct (op_changes _ _ _ _ E) as (A' & B' & C').
    split; [congruence|]. split; eauto.
  - rewrite (op_step_err _ _ _ E) in *. auto.
Qed.

(** Only reports add records. *)
Lemma new_record s c s' out ch : op_handle s c = Ok (s', out) ->
  (forall p, oget (op_proxies s') ch = Some p -> oget (op_proxies s) ch = None ->
     exists id cb d, oc_msg c = OpCallback id (Some p) /\ oget (op_callbacks s) id = Some cb /\ cb_type cb = CbProxy d /\
       x_chain (cb_spec cb) = ch /\
       oo_derive (oc_oracle c) (x_src_channel (cb_spec cb)) (cb_proxy cb) TERRA = Ok (oc_sender c)) /\
  (forall t, oget (op_treasuries s') ch = Some t -> oget (op_treasuries s) ch = None ->
     exists id cb x, oc_msg c = OpCallback id (Some t) /\ oget (op_callbacks s) id = Some cb /\ cb_type cb = CbTreasury x /\
       x_chain (cb_spec cb) = ch /\
       oo_derive (oc_oracle c) (x_src_channel (cb_spec cb)) (cb_proxy cb) TERRA = Ok (oc_sender c)).
Proof.
  destruct c as [o e sender m]. unfold op_handle. cbn [oc_oracle oc_env oc_sender oc_msg]. intros H.
  destruct m as [d|m x|id a].
  - apply deploy_iff in H. destruct H as (_ & _ & cb & m & order & _ & _ & -> & _). cbn. split; intros; congruence.
  - apply remote_order_iff in H. destruct H as (_ & -> & _). split; intros; congruence.
  - apply callback_iff in H. destruct H as (cb & created & w & Hcb & Hd & _ & -> & _ & H).
    destruct (cb_type cb) as [d|x] eqn:Ety.
    + destruct H as (Ep & -> & _). cbn. split; [|intros; congruence]. intros p Hp Hn.
      rewrite oget_oset in Hp. destruct (N.eqb_spec (x_chain (cb_spec cb)) ch) as [<-|]; [|congruence].
      inversion Hp; subst. exists id, cb, d. auto.
    + destruct H as (Ep & -> & _). cbn. split; [intros; congruence|]. intros p Hp Hn.
      rewrite oget_oset in Hp. destruct (N.eqb_spec (x_chain (cb_spec cb)) ch) as [<-|]; [|congruence].
      inversion Hp; subst. exists id, cb, x. auto.
Qed.

Lemma was_ordered_more s l c d : was_ordered s l d -> was_ordered s (l ++ [c]) d.
Proof.
  intros (l1 & c1 & l2 & -> & A & B & C). exists l1, c1, (l2 ++ [c]). split; [rewrite <- app_assoc; reflexivity|auto].
Qed.

Lemma outposts_new a s : outposts_instantiate a = Ok s ->
  op_enterprise s = a /\ op_proxies s = oempty /\ op_treasuries s = oempty /\ op_callbacks s = oempty /\ op_last s = 0.
Proof.
  unfold outposts_instantiate, addr_validate. destruct (a =? 0); cbn [bind]; [discriminate|].
  intros H. inversion H. cbn. auto.
Qed.

(** Every pending report belongs to an order of the controller; a treasury report only to a chain with a proxy. *)
Lemma pending_ordered a s l : outposts_instantiate a = Ok s ->
  forall id cb, oget (op_callbacks (op_run s l)) id = Some cb ->
  (exists d, was_ordered s l d /\ cb_spec cb = dt_spec d /\ cb_proxy cb = dt_global_proxy d /\
     (cb_type cb = CbProxy d \/ cb_type cb = CbTreasury (dt_spec d))) /\
  (forall x, cb_type cb = CbTreasury x -> exists p, oget (op_proxies (op_run s l)) (x_chain (cb_spec cb)) = Some p).
Proof.
  intros Hi. destruct (outposts_new _ _ Hi) as (_ & Ep0 & Et0 & Ec0 & _).
  induction l as [|c l IH] using rev_ind; intros id cb Hcb.
  - cbn [op_run fold_left] in Hcb. rewrite Ec0 in Hcb. discriminate.
  - rewrite op_run_snoc in *. destruct (op_handle (op_run s l) c) as [[s' out]|er] eqn:E.
    2:{ rewrite (op_step_err _ _ _ E) in *. destruct (IH id cb Hcb) as ((d & W & R) & P). split; [|exact P].
        exists d. split; [apply was_ordered_more; exact W|exact R]. }
    rewrite (op_step_ok _ _ _ _ E) in *.
    assert (Hold : forall id cb, oget (op_callbacks (op_run s l)) id = Some cb ->
      (exists d, was_ordered s (l ++ [c]) d /\ cb_spec cb = dt_spec d /\ cb_proxy cb = dt_global_proxy d /\
         (cb_type cb = CbProxy d \/ cb_type cb = CbTreasury (dt_spec d))) /\
      (forall x, cb_type cb = CbTreasury x -> exists p, oget (op_proxies s') (x_chain (cb_spec cb)) = Some p)).
    { intros i b Hb. destruct (IH i b Hb) as ((d & W & R) & P). split.
      - exists d. split; [apply was_ordered_more; exact W|exact R].
      - intros x Hx. destruct (P x Hx) as (p & Hp). exists p. destruct (op_changes _ _ _ _ E) as (_ & B & _). auto. }
    pose proof E as E0. destruct c as [o e sender m]. unfold op_handle in E. cbn [oc_oracle oc_env oc_sender oc_msg] in E.
    destruct m as [d|m x|i a0].
    + pose proof E as Ed. apply deploy_iff in Ed. destruct Ed as (Hs & _ & cb1 & m & order & _ & _ & E2 & Hcase).
      assert (W : was_ordered s (l ++ [mk_op_call o e sender (OpDeploy d)]) d).
      { exists l, (mk_op_call o e sender (OpDeploy d)), []. split; [reflexivity|]. split; [reflexivity|].
        split; [eexists; exact E0|exact Hs]. }
      rewrite E2 in Hcb. cbn [op_callbacks] in Hcb. rewrite oget_oset in Hcb.
      destruct (N.eqb_spec (next_id (op_last (op_run s l))) id) as [<-|]; [|apply (Hold id); exact Hcb].
      inversion Hcb; subst cb1. clear Hcb.
      destruct (oget (op_proxies (op_run s l)) (x_chain (dt_spec d))) as [p|] eqn:Ep.
      * destruct Hcase as (_ & ->). cbn. split; [exists d; auto|]. intros x _. exists p. rewrite E2. exact Ep.
      * destruct Hcase as (ow & _ & _ & ->). cbn. split; [exists d; auto|]. intros x Hx. discriminate.
    + apply remote_order_iff in E. destruct E as (_ & -> & _). apply (Hold id). exact Hcb.
    + apply callback_iff in E. destruct E as (cb0 & created & w & Hcb0 & _ & _ & _ & _ & E).
      destruct (Hold i cb0 Hcb0) as ((d0 & W0 & S0 & P0 & T0) & _).
      destruct (cb_type cb0) as [d|x] eqn:Ety.
      * assert (d0 = d) by (destruct T0 as [T0|T0]; congruence). subst d0.
        destruct E as (Ep & E2 & _). rewrite E2 in Hcb. cbn [op_callbacks] in Hcb. rewrite oget_oset in Hcb.
        destruct (N.eqb_spec (next_id (op_last (op_run s l))) id) as [<-|].
        -- inversion Hcb; subst cb. cbn. split.
           ++ exists d. auto.
           ++ intros x _. exists created. rewrite E2. cbn [op_proxies]. rewrite S0, oget_oset, N.eqb_refl. reflexivity.
        -- rewrite oget_odel in Hcb. destruct (N.eqb_spec i id); [discriminate|]. apply (Hold id). exact Hcb.
      * destruct E as (_ & E2 & _). rewrite E2 in Hcb. cbn [op_callbacks] in Hcb. rewrite oget_odel in Hcb.
        destruct (N.eqb_spec i id); [discriminate|]. apply (Hold id). exact Hcb.
Qed.

(** Where the records come from. *)
Lemma records_origin a s l ch : outposts_instantiate a = Ok s ->
  (forall p, oget (op_proxies (op_run s l)) ch = Some p ->
     exists l1 c l2 d id, l = l1 ++ c :: l2 /\ was_ordered s l1 d /\ x_chain (dt_spec d) = ch /\
       oc_msg c = OpCallback id (Some p) /\ accepted (op_run s l1) c /\ from_proxy_of d c) /\
  (forall t, oget (op_treasuries (op_run s l)) ch = Some t ->
     (exists p, oget (op_proxies (op_run s l)) ch = Some p) /\
     exists l1 c l2 d id, l = l1 ++ c :: l2 /\ was_ordered s l1 d /\ x_chain (dt_spec d) = ch /\
       oc_msg c = OpCallback id (Some t) /\ accepted (op_run s l1) c /\ from_proxy_of d c).
Proof.
  intros Hi0. destruct (outposts_new _ _ Hi0) as (_ & Ep0 & Et0 & Ec0 & _).
  induction l as [|c l IH] using rev_ind.
  - cbn [op_run fold_left]. rewrite Ep0, Et0. split; intros; discriminate.
  - destruct IH as (IHp & IHt).
    assert (Lp : forall P : list op_call -> op_call -> deploy_spec -> N -> Prop,
      (exists l1 c0 l2 d id, l = l1 ++ c0 :: l2 /\ P l1 c0 d id) -> exists l1 c0 l2 d id, l ++ [c] = l1 ++ c0 :: l2 /\ P l1 c0 d id).
    { intros P (l1 & c0 & l2 & d & id & -> & H). exists l1, c0, (l2 ++ [c]), d, id. split; [rewrite <- app_assoc; reflexivity|exact H]. }
    rewrite op_run_snoc. destruct (op_handle (op_run s l) c) as [[s' out]|er] eqn:E.
    2:{ rewrite (op_step_err _ _ _ E). split.
        - intros p Hp. apply Lp, IHp, Hp.
        - intros t Ht. destruct (IHt t Ht) as (A & B). split; [exact A|]. apply Lp, B. }
    rewrite (op_step_ok _ _ _ _ E). destruct (op_changes _ _ _ _ E) as (_ & Kp & Kt).
    destruct (new_record _ _ _ _ ch E) as (Np & Nt).
    split.
    + intros p Hp. destruct (oget (op_proxies (op_run s l)) ch) as [p0|] eqn:E0.
      * rewrite (Kp _ _ E0) in Hp. inversion Hp; subst. apply Lp, IHp. reflexivity.
      * destruct (Np p Hp eq_refl) as (id & cb & d & Hm & Hcb & _ & Hch & Hd).
        destruct (pending_ordered a s l Hi0 id cb Hcb) as ((d' & W & S' & P' & _) & _).
        exists l, c, [], d', id. split; [reflexivity|]. split; [exact W|]. split; [congruence|]. split; [exact Hm|].
        split; [eexists; exact E|]. unfold from_proxy_of. rewrite <- S', <- P'. exact Hd.
    + intros t Ht. destruct (oget (op_treasuries (op_run s l)) ch) as [t0|] eqn:E0.
      * rewrite (Kt _ _ E0) in Ht. inversion Ht; subst. destruct (IHt t eq_refl) as ((p & Hp) & B).
        split; [exists p; apply Kp, Hp|]. apply Lp, B.
      * destruct (Nt t Ht eq_refl) as (id & cb & x & Hm & Hcb & Hx & Hch & Hd).
        destruct (pending_ordered a s l Hi0 id cb Hcb) as ((d' & W & S' & P' & _) & Pr).
        destruct (Pr x Hx) as (p & Hp).
        split; [exists p; apply Kp; rewrite <- Hch; exact Hp|].
        exists l, c, [], d', id. split; [reflexivity|]. split; [exact W|]. split; [congruence|]. split; [exact Hm|].
        split; [eexists; exact E|]. unfold from_proxy_of. rewrite <- S', <- P'. exact Hd.
Qed.

(** Ids: an accepted call uses the next id or none. *)
Lemma op_ids s c s' out : op_handle s c = Ok (s', out) ->
  (op_last s' = op_last s \/ op_last s' = next_id (op_last s)) /\
  (forall id, is_callback id c -> oget (op_callbacks s) id <> None) /\
  (forall id cb, oget (op_callbacks s') id = Some cb ->
     (op_last s' = next_id (op_last s) /\ id = next_id (op_last s)) \/ (oget (op_callbacks s) id = Some cb /\ ~ is_callback id c)).
Proof.
  destruct c as [o e sender m]. unfold op_handle, is_callback. cbn [oc_oracle oc_env oc_sender oc_msg]. intros H.
  destruct m as [d|m x|i a].
  - apply deploy_iff in H. destruct H as (_ & _ & cb & m & order & _ & _ & -> & _). cbn [op_last op_callbacks].
    split; [auto|]. split; [intros id (? & ?); discriminate|]. intros id b Hb. rewrite oget_oset in Hb.
    destruct (N.eqb_spec (next_id (op_last s)) id) as [<-|]; [auto|]. right. split; [exact Hb|]. intros (? & ?). discriminate.
  - apply remote_order_iff in H. destruct H as (_ & -> & _). split; [auto|]. split; [intros id (? & ?); discriminate|].
    intros id b Hb. right. split; [exact Hb|]. intros (? & ?). discriminate.
  - apply callback_iff in H. destruct H as (cb & created & w & Hcb & _ & _ & _ & _ & H).
    assert (H0 : forall id, (exists a0, OpCallback i a = OpCallback id a0) -> oget (op_callbacks s) id <> None).
    { intros id (a0 & E). inversion E; subst. congruence. }
    destruct (cb_type cb) as [d|x].
    + destruct H as (_ & -> & _). cbn [op_last op_callbacks]. split; [auto|]. split; [exact H0|].
      intros id b Hb. rewrite oget_oset in Hb. destruct (N.eqb_spec (next_id (op_last s)) id) as [<-|]; [auto|].
      rewrite oget_odel in Hb. destruct (N.eqb_spec i id); [discriminate|]. right. split; [exact Hb|]. intros (a0 & E). inversion E; subst. contradiction.
    + destruct H as (_ & -> & _). cbn [op_last op_callbacks]. split; [auto|]. split; [exact H0|].
      intros id b Hb.
      rewrite oget_odel in Hb. destruct (N.eqb_spec i id); [discriminate|]. right. split; [exact Hb|]. intros (a0 & E). inversion E; subst. contradiction.
Qed.

Lemma next_id_small n : n + 1 < 2 ^ 32 -> next_id n = n + 1.
Proof. intros H. unfold next_id. apply N.mod_small. exact H. Qed.

Definition ids_ok (s : outposts) (n : N) : Prop :=
  op_last s <= n /\ forall id cb, oget (op_callbacks s) id = Some cb -> id <= op_last s.

Lemma ids_step s c n : ids_ok s n -> n + 1 < 2 ^ 32 -> ids_ok (op_step s c) (n + 1) /\ op_last s <= op_last (op_step s c).
Proof.
  intros (Hl & Hid) Hn. destruct (op_handle s c) as [[s' out]|er] eqn:E.
  - rewrite (op_step_ok _ _ _ _ E). destruct (op_ids _ _ _ _ E) as (Hlast & _ & Hcb).
    rewrite (next_id_small (op_last s)) in * by lia.
    split; [split; [lia|]|lia]. intros id cb Hg. destruct (Hcb id cb Hg) as [(E1 & E2)|(Hg' & _)]; [lia|].
    apply Hid in Hg'. lia.
  - rewrite (op_step_err _ _ _ E). split; [split; [lia|exact Hid]|lia].
Qed.

Lemma ids_run l : forall s n, ids_ok s n -> n + N.of_nat (length l) < 2 ^ 32 ->
  ids_ok (op_run s l) (n + N.of_nat (length l)) /\
  forall id, id <= op_last s -> oget (op_callbacks s) id = None -> oget (op_callbacks (op_run s l)) id = None.
Proof.
  induction l as [|c l IH]; intros s n Hs Hn.
  - cbn [op_run fold_left length]. rewrite N.add_0_r. auto.
  - change (op_run s (c :: l)) with (op_run (op_step s c) l). cbn [length] in Hn. rewrite Nat2N.inj_succ in Hn.
    assert (Hn1 : n + 1 < 2 ^ 32) by lia.
    destruct (ids_step s c n Hs Hn1) as (H1 & H2). destruct (IH (op_step s c) (n + 1) H1 ltac:(lia)) as (A & B).
    split; [cbn [length]; rewrite Nat2N.inj_succ; replace (n + N.succ (N.of_nat (length l))) with (n + 1 + N.of_nat (length l)) by lia; exact A|].
    intros id Hid Hnone. apply B; [lia|].
    destruct (op_handle s c) as [[s' out]|er] eqn:E.
    + rewrite (op_step_ok _ _ _ _ E) in *. destruct (op_ids _ _ _ _ E) as (_ & _ & Hcb).
      destruct (oget (op_callbacks s') id) as [cb|] eqn:Eg; [|reflexivity]. exfalso.
      destruct (Hcb id cb Eg) as [(E1 & E2)|(Hg & _)]; [|congruence].
      destruct Hs as (Hl & _). rewrite (next_id_small (op_last s)) in E2 by lia. lia.
    + rewrite (op_step_err _ _ _ E). exact Hnone.
Qed.

(** A report is taken at most once. *)
Lemma report_once a s l1 c l2 c2 id : outposts_instantiate a = Ok s ->
  N.of_nat (length (l1 ++ c :: l2)) < 2 ^ 32 ->
  is_callback id c -> accepted (op_run s l1) c -> is_callback id c2 ->
  ~ accepted (op_run s (l1 ++ c :: l2)) c2.
Proof.
  intros Hi Hlen Hc (r & Hr) Hc2 (r2 & Hr2). destruct (outposts_new _ _ Hi) as (_ & _ & _ & Ec & El).
  rewrite app_length in Hlen. cbn [length] in Hlen. rewrite Nat2N.inj_add, Nat2N.inj_succ in Hlen.
  assert (H0 : ids_ok s 0) by (split; [lia|]; intros i cb Hg; rewrite Ec in Hg; discriminate).
  destruct (ids_run l1 s 0 H0 ltac:(lia)) as (H1 & _). rewrite N.add_0_l in H1.
  destruct r as [s1 out1]. destruct r2 as [s2 out2].
  destruct (op_ids _ _ _ _ Hr) as (Hl & Hp & Hcb).
  assert (Hsome : oget (op_callbacks (op_run s l1)) id <> None) by (apply Hp; exact Hc).
  assert (Hle : id <= op_last (op_run s l1)).
  { destruct (oget (op_callbacks (op_run s l1)) id) as [cb|] eqn:Eg; [|contradiction]. eapply (proj2 H1). exact Eg. }
  destruct (ids_step (op_run s l1) c (N.of_nat (length l1)) H1 ltac:(lia)) as (H2 & H3).
  rewrite (op_step_ok _ _ _ _ Hr) in *.
  assert (Hgone : oget (op_callbacks s1) id = None).
  { destruct (oget (op_callbacks s1) id) as [cb|] eqn:Eg; [|reflexivity]. exfalso.
    destruct (Hcb id cb Eg) as [(E1 & E2)|(_ & Hnc)]; [|contradiction].
    destruct H1 as (H1 & _). rewrite (next_id_small (op_last (op_run s l1))) in E2 by lia. lia. }
  destruct (ids_run l2 s1 (N.of_nat (length l1) + 1) H2 ltac:(lia)) as (_ & B).
  assert (Hrun : op_run s (l1 ++ c :: l2) = op_run s1 l2).
  { rewrite op_run_app. change (op_run (op_run s l1) (c :: l2)) with (op_run (op_step (op_run s l1) c) l2).
    rewrite (op_step_ok _ _ _ _ Hr). reflexivity. }
  rewrite Hrun in Hr2. destruct (op_ids _ _ _ _ Hr2) as (_ & Hp2 & _). apply (Hp2 id Hc2).
  apply B; [lia|exact Hgone].
Qed.

(** A second report for a chain that has a proxy (or a treasury) is refused. *)
Lemma second_report_refused o e s sender id a cb : oget (op_callbacks s) id = Some cb ->
  match cb_type cb with CbProxy _ => oget (op_proxies s) (x_chain (cb_spec cb)) | CbTreasury _ => oget (op_treasuries s) (x_chain (cb_spec cb)) end <> None ->
  forall r, outposts_execute o e s sender (OpCallback id a) <> Ok r.
Proof.
  intros Hcb Hsome [s' out] H. apply callback_iff in H. destruct H as (cb0 & created & w & Hcb0 & _ & _ & _ & _ & H).
  assert (cb0 = cb) by congruence. subst. destruct (cb_type cb); destruct H as (H & _); congruence.
Qed.

(** The listing of the treasuries. *)
Lemma treasury_pages s :
  (forall ch t, In (ch, t) (elems (op_treasuries s)) <-> oget (op_treasuries s) ch = Some t) /\
  NoDup (map fst (elems (op_treasuries s))) /\
  forall limit, limit <> Some 0 ->
    let page := fun start => Ok (query_treasuries s (option_map fst start) limit) in
    pages_of (elems (op_treasuries s)) (N.to_nat (N.min (dflt 50 limit) 100)) page /\
    forall fuel, (length (elems (op_treasuries s)) < fuel)%nat -> read_pages fuel page None = Ok (elems (op_treasuries s)).
Proof.
  split; [intros ch t; symmetry; apply oget_In|].
  split; [apply okeys_NoDup|].
  intros limit Hl page.
  assert (Hp : pages_of (elems (op_treasuries s)) (N.to_nat (N.min (dflt 50 limit) 100)) page).
  { split.
    - reflexivity.
    - intros i [ch t] Hn. unfold page, query_treasuries, take. cbn [option_map fst].
      rewrite (orange_skip _ i _ t Hn). reflexivity. }
  split; [exact Hp|]. intros fuel Hf.
  apply (read_all _ (N.to_nat (N.min (dflt 50 limit) 100)) _ ltac:(destruct limit as [n|]; cbn [dflt]; [|vm_compute; lia]; assert (n <> 0) by congruence; lia) Hp fuel 0%nat).
  - lia.
  - cbn [skipn]. apply Hp.
Qed.
Lemma deployments_reported s ch : query_deployments s ch = (oget (op_proxies s) ch, oget (op_treasuries s) ch).
Proof. reflexivity. Qed.

(** ** Bridge *)
Lemma nth_error_same {A} (l1 l2 : list A) : (forall i, nth_error l1 i = nth_error l2 i) -> l1 = l2.
Proof.
  revert l2. induction l1 as [|a l1 IH]; intros [|b l2] H; [reflexivity|specialize (H 0%nat); discriminate|specialize (H 0%nat); discriminate|].
  pose proof (H 0%nat) as H0. cbn in H0. inversion H0; subst. f_equal. apply IH. intros i. exact (H (S i)).
Qed.
Lemma bridge_iff bridge sender nft tokens payload out :
  bridge_callback bridge sender nft tokens payload = Ok out <->
  sender = bridge /\
  match payload with
  | None => out = []
  | Some (user, membership) =>
      length out = length tokens /\
      forall i t, nth_error tokens i = Some t ->
        nth_error out i = Some (mk_sub (WasmExecute nft (ToCw721 (Cw721Send membership t (NStake user))) []) ReplyNever)
  end.
Proof.
  unfold bridge_callback, guard. destruct (N.eqb_spec sender bridge) as [->|Hne]; cbn [bind].
  2:{ split; [discriminate|]. intros (E & _). contradiction. }
  destruct payload as [[user membership]|].
  - split.
    + intros H. inversion H; subst. split; [reflexivity|]. split; [apply map_length|].
      intros i t Ht. rewrite nth_error_map, Ht. reflexivity.
    + intros (_ & Hlen & Hn). f_equal. apply nth_error_same. intros i.
      rewrite nth_error_map. destruct (nth_error tokens i) as [t|] eqn:Et.
      * rewrite (Hn i t Et). reflexivity.
      * apply nth_error_None in Et. cbn. symmetry. apply nth_error_None. lia.
  - split; [intros H; inversion H; auto|]. intros (_ & ->). reflexivity.
Qed.

(** What the membership contract makes of it. *)
Lemma stake_one o e nft user s t r : member_execute o (MNft s) e nft [] (NftMsg (NReceive t (NStake user))) = Ok r ->
  exists s', fst r = MNft s' /\ user <> 0 /\ oget (ns_stakes s) t = None /\
    (forall k, oget (ns_stakes s') k = if t =? k then Some user else oget (ns_stakes s) k) /\
    member_weight (ns_members s') user = member_weight (ns_members s) user + 1 /\
    forall v, v <> user -> member_weight (ns_members s') v = member_weight (ns_members s) v.
Proof.
  cbn [member_execute nft_execute]. intros H. apply bind_ok in H. destruct H as ([s' outs] & H & Hr).
  inversion Hr; subst r. clear Hr. exists s'. split; [reflexivity|]. unfold receive_nft in H.
  apply bind_ok in H. destruct H as ([s1 c] & Hs1 & H). apply bind_ok in H. destruct H as (u0 & _ & H).
  assert (Es : ns_stakes s1 = ns_stakes s /\ ns_members s1 = ns_members s).
  { destruct (ns_contract s); [inversion Hs1; subst; auto|]. apply bind_ok in Hs1. destruct Hs1 as (f & _ & Hs1).
    apply bind_ok in Hs1. destruct Hs1 as (a9 & _ & Hs1). inversion Hs1; subst. auto. }
  destruct Es as (Es & Em). unfold stake_nft in H.
  apply bind_ok in H. destruct H as (? & _ & H). rewrite Es in H. unfold ohas, guard in H.
  destruct (oget (ns_stakes s) t) eqn:Et; [discriminate|]. cbn [is_some negb bind] in H.
  apply bind_ok in H. destruct H as (u & Hu & H). apply addr_validate_ok in Hu. destruct Hu as (-> & Hnz).
  apply bind_ok in H. destruct H as ([m w] & Hw & H). apply bind_ok in H. destruct H as (m2 & Hm2 & H). inversion H; subst.
  split; [exact Hnz|]. split; [reflexivity|].
  split; [intros k; cbn [ns_stakes ns_with_members ns_with_stakes]; rewrite oget_oset; reflexivity|].
  cbn [ns_members ns_with_members].
  unfold increment_total_weight in Hm2. apply bind_ok in Hm2. destruct Hm2 as (tt0 & _ & Hm2). inversion Hm2; subst.
  unfold increment_member_weight in Hw. apply bind_ok in Hw. destruct Hw as (w0 & Hw0 & Hw). inversion Hw; subst.
  cbn [ns_members ns_with_stakes] in *. rewrite Em in *. unfold uint_add in Hw0.
  destruct (_ <? _) in Hw0; [|discriminate]. inversion Hw0; subst.
  unfold member_weight, save_total_weight, set_member_weight, with_member_weights. cbn [m_weights]. split.
  - unfold ogetN. rewrite oget_oset, N.eqb_refl. reflexivity.
  - intros v Hv. unfold ogetN. rewrite oget_oset. destruct (N.eqb_spec u v); [congruence|reflexivity].
Qed.

Lemma bridged_staked o e nft user tokens : forall s st',
  receive_all o e nft user (MNft s) tokens = Ok st' ->
  exists s', st' = MNft s' /\ NoDup tokens /\
    (forall t, In t tokens -> oget (ns_stakes s) t = None /\ oget (ns_stakes s') t = Some user) /\
    (forall t, ~ In t tokens -> oget (ns_stakes s') t = oget (ns_stakes s) t) /\
    member_weight (ns_members s') user = member_weight (ns_members s) user + N.of_nat (length tokens) /\
    forall v, v <> user -> member_weight (ns_members s') v = member_weight (ns_members s) v.
Proof.
  induction tokens as [|t rest IH]; intros s st' H; cbn [receive_all] in H.
  - inversion H; subst. exists s. split; [reflexivity|]. split; [constructor|]. split; [intros t []|]. split; [reflexivity|].
    split; [cbn [length]; lia|reflexivity].
  - apply bind_ok in H. destruct H as (r & Hr & H). destruct (stake_one _ _ _ _ _ _ _ Hr) as (s1 & E1 & Hnz & Hn & Hst & Hw & Ho).
    rewrite E1 in H. destruct (IH s1 st' H) as (s' & -> & Hnd & Hin & Hout & Hw' & Ho').
    exists s'. split; [reflexivity|].
    assert (Hnot : ~ In t rest). { intros Hi. destruct (Hin t Hi) as (A & _). rewrite Hst, N.eqb_refl in A. discriminate. }
    split; [constructor; assumption|]. split.
    + intros k [->|Hk].
      * split; [exact Hn|]. rewrite (Hout k Hnot), Hst, N.eqb_refl. reflexivity.
      * destruct (Hin k Hk) as (A & B). split; [|exact B]. rewrite Hst in A. destruct (t =? k); [discriminate|exact A].
    + split.
      * intros k Hk. rewrite Hout by (intros Hi; apply Hk; right; exact Hi). rewrite Hst.
        destruct (N.eqb_spec t k) as [->|]; [exfalso; apply Hk; left; reflexivity|reflexivity].
      * split; [rewrite Hw', Hw; cbn [length]; lia|]. intros v Hv. rewrite Ho', Ho by exact Hv. reflexivity.
Qed.
