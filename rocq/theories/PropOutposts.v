(** Outposts and bridge properties C50 and C51. *)
From Verif Require Import Base OMap Assets MemberModel MemberExamples Msgs TreasurySpec
  OutpostsModel OutpostsSpec OutpostsExamples OutpostsFacts OutpostsCases.

(** C50: an order to deploy is accepted exactly from the controller and only if the chain has no treasury; it sends one message, and all it changes is one pending report under the next id. *)
Theorem C50_deploy_exact : forall o e s sender d s' out,
  outposts_execute o e s sender (OpDeploy d) = Ok (s', out) <->
  sent_by_controller o sender /\ oget (op_treasuries s) (x_chain (dt_spec d)) = None /\
  exists cb m order, out = [m] /\
    asks o e (dt_global_proxy d) order (dt_spec d) (Some (next_id (op_last s))) m /\
    s' = mk_outposts (op_enterprise s) (op_proxies s) (op_treasuries s) (oset (op_callbacks s) (next_id (op_last s)) cb)
           (next_id (op_last s)) /\
    match oget (op_proxies s) (x_chain (dt_spec d)) with
    | Some proxy => order = WasmInstantiate (Some proxy) (dt_treasury_code d) (InitTreasury proxy (dt_assets d) (dt_nfts d)) /\
        cb = mk_callback (dt_spec d) (dt_global_proxy d) (CbTreasury (dt_spec d))
    | None => exists owner, oo_derive o (x_dest_channel (dt_spec d)) (oo_self o) (x_prefix (dt_spec d)) = Ok owner /\
        order = WasmInstantiate None (dt_proxy_code d) (InitProxy owner) /\
        cb = mk_callback (dt_spec d) (dt_global_proxy d) (CbProxy d)
    end.
Proof. exact deploy_iff. Qed.
Print Assumptions C50_deploy_exact.

(** ... a report is accepted exactly if it is pending and comes from the address derived for the global proxy of the order; it records the reported address if the chain has none, and for a proxy orders the treasury, owned by that proxy. *)
Theorem C50_report_exact : forall o e s sender id a s' out,
  outposts_execute o e s sender (OpCallback id a) = Ok (s', out) <->
  exists cb created wiring, oget (op_callbacks s) id = Some cb /\
    oo_derive o (x_src_channel (cb_spec cb)) (cb_proxy cb) TERRA = Ok sender /\ sender <> 0 /\
    a = Some created /\ oo_components o = Ok wiring /\
    match cb_type cb with
    | CbProxy d => oget (op_proxies s) (x_chain (cb_spec cb)) = None /\
        s' = mk_outposts (op_enterprise s) (oset (op_proxies s) (x_chain (cb_spec cb)) created) (op_treasuries s)
               (oset (odel (op_callbacks s) id) (next_id (op_last s)) (mk_callback (dt_spec d) (cb_proxy cb) (CbTreasury (dt_spec d))))
               (next_id (op_last s)) /\
        exists m, out = [m] /\
          asks o e (cb_proxy cb) (WasmInstantiate (Some created) (dt_treasury_code d) (InitTreasury created (dt_assets d) (dt_nfts d)))
            (dt_spec d) (Some (next_id (op_last s))) m
    | CbTreasury _ => oget (op_treasuries s) (x_chain (cb_spec cb)) = None /\
        s' = mk_outposts (op_enterprise s) (op_proxies s) (oset (op_treasuries s) (x_chain (cb_spec cb)) created)
               (odel (op_callbacks s) id) (op_last s) /\
        out = []
    end.
Proof. exact callback_iff. Qed.
Print Assumptions C50_report_exact.

(** ... an order to a remote treasury is accepted exactly from the controller, goes to the recorded proxy and names the recorded treasury. *)
Theorem C50_remote_order_exact : forall o e s sender m x s' out,
  outposts_execute o e s sender (OpExecute m x) = Ok (s', out) <->
  sent_by_controller o sender /\ s' = s /\
  exists proxy treasury y, oget (op_proxies s) (x_chain x) = Some proxy /\ oget (op_treasuries s) (x_chain x) = Some treasury /\
    out = [y] /\ asks o e proxy (WasmExecute treasury (ToTreasury m) []) x None y.
Proof. exact remote_order_iff. Qed.
Print Assumptions C50_remote_order_exact.

Example C50_orders_nonvacuous :
  (exists s', outposts_execute oo (at_ 1) op0 BOSS (OpDeploy d_juno) =
     Ok (s', [plain (IbcTransfer 11 12 ULUNA 1 900 901000000000 (WasmInstantiate None 801 (InitProxy 1400052))
                       (Some (mk_reply_callback 1 13 14 15 OWN)))])) /\
  outposts_execute oo (at_ 9) (op_run op0 op_calls) BOSS (OpExecute (TrSetAdmin 33) to_juno) =
    Ok (op_run op0 op_calls, [plain (IbcTransfer 11 12 ULUNA 1 9001 909000000000 (WasmExecute 9003 (ToTreasury (TrSetAdmin 33)) []) None)]) /\
  sent_by_controller oo BOSS /\
  is_ok (outposts_execute oo (at_ 9) (op_run op0 op_calls) BOSS (OpExecute (TrSetAdmin 33) to_osmo)) = false.
Proof. exact case_orders. Qed.

(** ... records are never overwritten. *)
Theorem C50_records_kept : forall s l,
  op_enterprise (op_run s l) = op_enterprise s /\
  (forall ch p, oget (op_proxies s) ch = Some p -> oget (op_proxies (op_run s l)) ch = Some p) /\
  (forall ch t, oget (op_treasuries s) ch = Some t -> oget (op_treasuries (op_run s l)) ch = Some t).
Proof. exact records_kept. Qed.
Print Assumptions C50_records_kept.

(** ... each comes from a report that answers an order of the controller; a chain with a treasury has a proxy. *)
Theorem C50_records_origin : forall a s l ch,
  outposts_instantiate a = Ok s ->
  (forall p, oget (op_proxies (op_run s l)) ch = Some p ->
     exists l1 c l2 d id, l = l1 ++ c :: l2 /\ was_ordered s l1 d /\ x_chain (dt_spec d) = ch /\
       oc_msg c = OpCallback id (Some p) /\ accepted (op_run s l1) c /\ from_proxy_of d c) /\
  (forall t, oget (op_treasuries (op_run s l)) ch = Some t ->
     (exists p, oget (op_proxies (op_run s l)) ch = Some p) /\
     exists l1 c l2 d id, l = l1 ++ c :: l2 /\ was_ordered s l1 d /\ x_chain (dt_spec d) = ch /\
       oc_msg c = OpCallback id (Some t) /\ accepted (op_run s l1) c /\ from_proxy_of d c).
Proof. exact records_origin. Qed.
Print Assumptions C50_records_origin.

Theorem C50_pending_ordered : forall a s l,
  outposts_instantiate a = Ok s ->
  forall id cb, oget (op_callbacks (op_run s l)) id = Some cb ->
  (exists d, was_ordered s l d /\ cb_spec cb = dt_spec d /\ cb_proxy cb = dt_global_proxy d /\
     (cb_type cb = CbProxy d \/ cb_type cb = CbTreasury (dt_spec d))) /\
  (forall x, cb_type cb = CbTreasury x -> exists p, oget (op_proxies (op_run s l)) (x_chain (cb_spec cb)) = Some p).
Proof. exact pending_ordered. Qed.
Print Assumptions C50_pending_ordered.

(** ... a report is taken at most once (ids are u32 and wrap after 2^32 orders). *)
Theorem C50_report_once : forall a s l1 c l2 c2 id,
  outposts_instantiate a = Ok s ->
  N.of_nat (length (l1 ++ c :: l2)) < 2 ^ 32 ->
  is_callback id c -> accepted (op_run s l1) c -> is_callback id c2 ->
  ~ accepted (op_run s (l1 ++ c :: l2)) c2.
Proof. exact report_once. Qed.
Print Assumptions C50_report_once.

Example C50_nonvacuous :
  outposts_instantiate 1 = Ok op0 /\
  query_deployments (op_run op0 op_calls) 70 = (Some 9001, Some 9003) /\
  query_deployments (op_run op0 op_calls) 71 = (None, None) /\
  map (fun n => is_ok (op_handle (op_run op0 (firstn n op_calls)) (nth n op_calls (op_c 0 0 (OpCallback 0 None))))) (seq 0 8) =
    [true; true; true; true; false; true; false; false] /\
  N.of_nat (length op_calls) < 2 ^ 32.
Proof. exact case_outposts. Qed.

(** Concurrent orders for one chain are accepted; whoever reports second is refused. *)
Theorem C50_second_report_refused : forall o e s sender id a cb,
  oget (op_callbacks s) id = Some cb ->
  match cb_type cb with CbProxy _ => oget (op_proxies s) (x_chain (cb_spec cb)) | CbTreasury _ => oget (op_treasuries s) (x_chain (cb_spec cb)) end <> None ->
  forall r, outposts_execute o e s sender (OpCallback id a) <> Ok r.
Proof. exact second_report_refused. Qed.
Print Assumptions C50_second_report_refused.

Example C50_second_report_nonvacuous : exists cb, oget (op_callbacks (op_run op0 (firstn 4 op_calls))) 2 = Some cb /\
  cb_type cb = CbProxy d_juno2 /\ oget (op_proxies (op_run op0 (firstn 4 op_calls))) (x_chain (cb_spec cb)) = Some 9001.
Proof. exact case_second_report. Qed.

Example C50_orphaned_treasury :
  map (fun n => is_ok (op_handle (op_run op0 (firstn n twice)) (nth n twice (op_c 0 0 (OpCallback 0 None))))) (seq 0 5) =
    [true; true; true; true; false] /\
  query_deployments (op_run op0 twice) 71 = (Some 9101, Some 9102).
Proof. exact case_orphan. Qed.

(** The queries: the listing read in pages of any size is the list of the recorded treasuries. *)
Theorem C50_treasury_pages : forall s,
  (forall ch t, In (ch, t) (elems (op_treasuries s)) <-> oget (op_treasuries s) ch = Some t) /\
  NoDup (map fst (elems (op_treasuries s))) /\
  forall limit, limit <> Some 0 ->
    let page := fun start => Ok (query_treasuries s (option_map fst start) limit) in
    pages_of (elems (op_treasuries s)) (N.to_nat (N.min (dflt 50 limit) 100)) page /\
    forall fuel, (length (elems (op_treasuries s)) < fuel)%nat -> read_pages fuel page None = Ok (elems (op_treasuries s)).
Proof. exact treasury_pages. Qed.
Print Assumptions C50_treasury_pages.

Theorem C50_deployments_reported : forall s ch,
  query_deployments s ch = (oget (op_proxies s) ch, oget (op_treasuries s) ch).
Proof. exact deployments_reported. Qed.
Print Assumptions C50_deployments_reported.

(** C51: a callback is accepted exactly from the bridge, and makes one send-and-stake message per token, in order. *)
Theorem C51_callback_exact : forall bridge sender nft tokens payload out,
  bridge_callback bridge sender nft tokens payload = Ok out <->
  sender = bridge /\
  match payload with
  | None => out = []
  | Some (user, membership) =>
      length out = length tokens /\
      forall i t, nth_error tokens i = Some t ->
        nth_error out i = Some (mk_sub (WasmExecute nft (ToCw721 (Cw721Send membership t (NStake user))) []) ReplyNever)
  end.
Proof. exact bridge_iff. Qed.
Print Assumptions C51_callback_exact.

(** ... which, delivered to the membership contract by the collection, stake exactly these tokens for exactly that user. *)
Theorem C51_tokens_staked : forall o e nft user tokens,
  forall s st',
  receive_all o e nft user (MNft s) tokens = Ok st' ->
  exists s', st' = MNft s' /\ NoDup tokens /\
    (forall t, In t tokens -> oget (ns_stakes s) t = None /\ oget (ns_stakes s') t = Some user) /\
    (forall t, ~ In t tokens -> oget (ns_stakes s') t = oget (ns_stakes s) t) /\
    member_weight (ns_members s') user = member_weight (ns_members s) user + N.of_nat (length tokens) /\
    forall v, v <> user -> member_weight (ns_members s') v = member_weight (ns_members s) v.
Proof. exact bridged_staked. Qed.
Print Assumptions C51_tokens_staked.

Example C51_nonvacuous :
  bridge_instantiate 61 = Ok 61 /\
  bridge_callback 61 61 60 [31; 32; 33] (Some (105, 7)) =
    Ok [plain (WasmExecute 60 (ToCw721 (Cw721Send 7 31 (NStake 105))) []);
        plain (WasmExecute 60 (ToCw721 (Cw721Send 7 32 (NStake 105))) []);
        plain (WasmExecute 60 (ToCw721 (Cw721Send 7 33 (NStake 105))) [])] /\
  bridge_callback 61 61 60 [31] None = Ok [] /\ bridge_callback 61 62 60 [31] (Some (105, 7)) = Err EUnauthorized /\
  is_ok (receive_all ex_moracle (at_block 20) 60 105 nft_st [31; 32; 33]) = true.
Proof. exact case_bridge. Qed.
