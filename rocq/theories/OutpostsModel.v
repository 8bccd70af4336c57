(** The outposts contract and the bridge callback proxy: contracts/enterprise-outposts/src,
    packages/ics721-callback-proxy-impl/src. *)
From Verif Require Import Base OMap Assets MemberModel Msgs.

(** * Outposts *)

(** ibc_hooks.rs:154-172 [IcsProxyCallback], [IcsProxyCallbackType] *)
Inductive callback_type := CbProxy (d : deploy_spec) | CbTreasury (x : cross_spec).
Record callback := mk_callback { cb_spec : cross_spec; cb_proxy : N; cb_type : callback_type }.

(** state.rs and ibc_hooks.rs:149-152: [ENTERPRISE_CONTRACT], [CROSS_CHAIN_PROXIES], [CROSS_CHAIN_TREASURIES],
    [ICS_PROXY_CALLBACKS], [ICS_PROXY_CALLBACK_LAST_ID] (0 if not set: it is only read with that default) *)
Record outposts := mk_outposts {
  op_enterprise : addr;
  op_proxies : omap N;
  op_treasuries : omap N;
  op_callbacks : omap callback;
  op_last : N
}.

(** What the contract asks: its own address, the wiring held by the enterprise contract, and
    [derive_intermediate_sender] (ibc_hooks.rs:188-198: a hash of channel and sender, encoded with a prefix,
    which fails for a malformed prefix), kept abstract. *)
Record op_oracle := mk_op_oracle {
  oo_self : addr;
  oo_components : res components;
  oo_derive : N -> N -> N -> res N
}.

(** ibc_hooks.rs:175 [TERRA_CHAIN_BECH32_PREFIX] *)
Definition TERRA : N := 1.
(** ibc_hooks.rs:125: the denom "uluna" *)
Definition ULUNA : N := 1.

(** contract.rs:48-62 [instantiate] *)
Definition outposts_instantiate (enterprise : N) : res outposts :=
  e <- addr_validate enterprise ;; Ok (mk_outposts e oempty oempty oempty 0).

(** validate.rs:8-24 [enterprise_governance_controller_caller_only] *)
Definition op_controller_only (o : op_oracle) (sender : addr) : res unit :=
  c <- oo_components o ;; guard (sender =? c_controller c) EUnauthorized.

(** ibc_hooks.rs:85-146 [ibc_hooks_msg_to_ics_proxy_contract] *)
Definition to_proxy (o : op_oracle) (e : env) (m : cosmos_msg) (proxy : N) (x : cross_spec) (id : option N) : res sub_msg :=
  let cb := option_map (fun id => mk_reply_callback id (x_dest_port x) (x_dest_channel x) (x_uluna x) (oo_self o)) id in
  timeout <- ts_plus_nanos (e_time e) (dflt (15 * 60 * 1000000000) (x_timeout x)) ;;
  Ok (plain (IbcTransfer (x_src_port x) (x_src_channel x) ULUNA 1 proxy timeout m cb)).

(** contract.rs:203-252 [instantiate_remote_treasury]; the id is a native u32 *)
Definition instantiate_remote_treasury (o : op_oracle) (e : env) (s : outposts) (code global_proxy proxy : N)
    (assets : option (list asset)) (nfts : option (list N)) (x : cross_spec) : res (outposts * sub_msg) :=
  let id := u32_add (op_last s) 1 in
  let s := mk_outposts (op_enterprise s) (op_proxies s) (op_treasuries s)
             (oset (op_callbacks s) id (mk_callback x global_proxy (CbTreasury x))) id in
  m <- to_proxy o e (WasmInstantiate (Some proxy) code (InitTreasury proxy assets nfts)) global_proxy x (Some id) ;;
  Ok (s, m).

(** contract.rs:80-173 [deploy_cross_chain_treasury] *)
Definition op_deploy (o : op_oracle) (e : env) (s : outposts) (sender : addr) (d : deploy_spec)
  : res (outposts * list sub_msg) :=
  _ <- op_controller_only o sender ;;
  let x := dt_spec d in
  _ <- guard (negb (ohas (op_treasuries s) (x_chain x))) ETreasuryExists ;;
  match oget (op_proxies s) (x_chain x) with
  | Some proxy =>
      '(s, m) <- instantiate_remote_treasury o e s (dt_treasury_code d) (dt_global_proxy d) proxy (dt_assets d)
                   (dt_nfts d) x ;;
      Ok (s, [m])
  | None =>
      let id := u32_add (op_last s) 1 in
      let s := mk_outposts (op_enterprise s) (op_proxies s) (op_treasuries s)
                 (oset (op_callbacks s) id (mk_callback x (dt_global_proxy d) (CbProxy d))) id in
      owner <- oo_derive o (x_dest_channel x) (oo_self o) (x_prefix x) ;;
      m <- to_proxy o e (WasmInstantiate None (dt_proxy_code d) (InitProxy owner)) (dt_global_proxy d) x (Some id) ;;
      Ok (s, [m])
  end.

(** contract.rs:254-288 [execute_cross_chain_treasury] *)
Definition op_execute_treasury (o : op_oracle) (e : env) (s : outposts) (sender : addr) (m : treasury_msg) (x : cross_spec)
  : res (outposts * list sub_msg) :=
  _ <- op_controller_only o sender ;;
  proxy <- ok_or (oget (op_proxies s) (x_chain x)) ENoDeployment ;;
  treasury <- ok_or (oget (op_treasuries s) (x_chain x)) ENoDeployment ;;
  m <- to_proxy o e (WasmExecute treasury (ToTreasury m) []) proxy x None ;;
  Ok (s, [m]).

(** contract.rs:175-187 [add_cross_chain_proxy] *)
Definition add_proxy (s : outposts) (chain proxy : N) : res outposts :=
  _ <- guard (negb (ohas (op_proxies s) chain)) EProxyExists ;;
  Ok (mk_outposts (op_enterprise s) (oset (op_proxies s) chain proxy) (op_treasuries s) (op_callbacks s) (op_last s)).

(** contract.rs:189-201 [add_cross_chain_treasury] *)
Definition add_treasury (s : outposts) (chain treasury : N) : res outposts :=
  _ <- guard (negb (ohas (op_treasuries s) chain)) ETreasuryExists ;;
  Ok (mk_outposts (op_enterprise s) (op_proxies s) (oset (op_treasuries s) chain treasury) (op_callbacks s) (op_last s)).

(** contract.rs:290-393 [execute_msg_reply_callback], [handle_instantiate_proxy_reply_callback],
    [handle_instantiate_treasury_reply_callback]; the DAO address asked for at the end is an attribute only *)
Definition op_callback (o : op_oracle) (e : env) (s : outposts) (sender : addr) (id : N) (created : option N)
  : res (outposts * list sub_msg) :=
  cb <- ok_or (oget (op_callbacks s) id) EUnauthorized ;;
  let x := cb_spec cb in
  derived <- oo_derive o (x_src_channel x) (cb_proxy cb) TERRA ;;
  expected <- addr_validate derived ;;
  _ <- guard (sender =? expected) EUnauthorized ;;
  let s := mk_outposts (op_enterprise s) (op_proxies s) (op_treasuries s) (odel (op_callbacks s) id) (op_last s) in
  match cb_type cb with
  | CbProxy d =>
      proxy <- ok_or created EStd ;;
      s <- add_proxy s (x_chain x) proxy ;;
      '(s, m) <- instantiate_remote_treasury o e s (dt_treasury_code d) (cb_proxy cb) proxy (dt_assets d) (dt_nfts d)
                   (dt_spec d) ;;
      _ <- oo_components o ;;
      Ok (s, [m])
  | CbTreasury _ =>
      treasury <- ok_or created EStd ;;
      s <- add_treasury s (x_chain x) treasury ;;
      _ <- oo_components o ;;
      Ok (s, [])
  end.

(** contract.rs:64-78 [execute] *)
Definition outposts_execute (o : op_oracle) (e : env) (s : outposts) (sender : addr) (m : outposts_msg)
  : res (outposts * list sub_msg) :=
  match m with
  | OpDeploy d => op_deploy o e s sender d
  | OpExecute m x => op_execute_treasury o e s sender m x
  | OpCallback id a => op_callback o e s sender id a
  end.

(** contract.rs:415-439 [query_cross_chain_treasuries] *)
Definition query_treasuries (s : outposts) (start_after limit : option N) : list (N * N) :=
  take (N.min (dflt 50 limit) 100) (orange (op_treasuries s) start_after).

(** contract.rs:441-455 [query_cross_chain_deployments]: proxy and treasury *)
Definition query_deployments (s : outposts) (chain : N) : option N * option N :=
  (oget (op_proxies s) chain, oget (op_treasuries s) chain).

(** Histories: each call with the time and the answers of that time; a failed call leaves the state as it was. *)
Record op_call := mk_op_call { oc_oracle : op_oracle; oc_env : env; oc_sender : addr; oc_msg : outposts_msg }.
Definition op_handle (s : outposts) (c : op_call) : res (outposts * list sub_msg) :=
  outposts_execute (oc_oracle c) (oc_env c) s (oc_sender c) (oc_msg c).
Definition op_step (s : outposts) (c : op_call) : outposts :=
  match op_handle s c with Ok (s', _) => s' | Err _ => s end.
Definition op_run (s : outposts) (l : list op_call) : outposts := fold_left op_step l s.

(** * Bridge callback proxy (packages/ics721-callback-proxy-impl/src) *)

(** instantiate.rs:6-14: the configuration is the address of the bridge *)
Definition bridge_instantiate (ics721_proxy : N) : res addr := addr_validate ics721_proxy.

(** execute.rs:11-65 [ics721_receive_callback], [stake_nft]. [payload]: user and membership contract of a
    [Stake] message, [None] for anything else. *)
Definition bridge_callback (bridge sender : addr) (nft_contract : N) (tokens : list N) (payload : option (N * N))
  : res (list sub_msg) :=
  _ <- guard (sender =? bridge) EUnauthorized ;;
  match payload with
  | Some (user, membership) =>
      Ok (map (fun t => plain (WasmExecute nft_contract (ToCw721 (Cw721Send membership t (NStake user))) [])) tokens)
  | None => Ok []
  end.
