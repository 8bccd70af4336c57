(** Witnesses for the outposts and bridge properties. *)
From Verif Require Import Base OMap OMapLemmas Assets MemberModel MemberExamples Msgs TreasurySpec OutpostsModel OutpostsSpec OutpostsFacts
  OutpostsExamples.

Lemma case_outposts :
  outposts_instantiate 1 = Ok op0 /\
  query_deployments (op_run op0 op_calls) 70 = (Some 9001, Some 9003) /\
  query_deployments (op_run op0 op_calls) 71 = (None, None) /\
  map (fun n => is_ok (op_handle (op_run op0 (firstn n op_calls)) (nth n op_calls (op_c 0 0 (OpCallback 0 None))))) (seq 0 8) =
    [true; true; true; true; false; true; false; false] /\
  N.of_nat (length op_calls) < 2 ^ 32.
Proof. do 4 (split; [vm_compute; reflexivity|]). vm_compute. reflexivity. Qed.

(** The order to deploy and the order to spend, as sent. *)
Lemma case_orders :
  (exists s', outposts_execute oo (at_ 1) op0 BOSS (OpDeploy d_juno) =
     Ok (s', [plain (IbcTransfer 11 12 ULUNA 1 900 901000000000 (WasmInstantiate None 801 (InitProxy 1400052))
                       (Some (mk_reply_callback 1 13 14 15 OWN)))])) /\
  outposts_execute oo (at_ 9) (op_run op0 op_calls) BOSS (OpExecute (TrSetAdmin 33) to_juno) =
    Ok (op_run op0 op_calls, [plain (IbcTransfer 11 12 ULUNA 1 9001 909000000000 (WasmExecute 9003 (ToTreasury (TrSetAdmin 33)) []) None)]) /\
  sent_by_controller oo BOSS /\
  is_ok (outposts_execute oo (at_ 9) (op_run op0 op_calls) BOSS (OpExecute (TrSetAdmin 33) to_osmo)) = false.
Proof.
  split; [eexists; vm_compute; reflexivity|]. split; [vm_compute; reflexivity|]. split; [eexists; split; reflexivity|].
  vm_compute. reflexivity.
Qed.

(** The second report for juno: its proxy is already recorded. *)
Lemma case_second_report : exists cb, oget (op_callbacks (op_run op0 (firstn 4 op_calls))) 2 = Some cb /\
  cb_type cb = CbProxy d_juno2 /\ oget (op_proxies (op_run op0 (firstn 4 op_calls))) (x_chain (cb_spec cb)) = Some 9001.
Proof. eexists. split; [vm_compute; reflexivity|]. split; reflexivity. Qed.

(** A treasury deployed twice: with the proxy in place, two orders are accepted and two treasuries are created
    on the other chain; the second one's report is refused, so the DAO never records it. *)
Definition twice : list op_call :=
  [op_c 1 BOSS (OpDeploy d_osmo); op_c 2 (from_proxy to_osmo 910) (OpCallback 1 (Some 9101));
   op_c 3 BOSS (OpDeploy d_osmo);
   op_c 4 (from_proxy to_osmo 910) (OpCallback 2 (Some 9102));
   op_c 5 (from_proxy to_osmo 910) (OpCallback 3 (Some 9103))].
Lemma case_orphan :
  map (fun n => is_ok (op_handle (op_run op0 (firstn n twice)) (nth n twice (op_c 0 0 (OpCallback 0 None))))) (seq 0 5) =
    [true; true; true; true; false] /\
  query_deployments (op_run op0 twice) 71 = (Some 9101, Some 9102).
Proof. split; vm_compute; reflexivity. Qed.

(** Three bridged tokens, staked for 102 by the membership contract at 7, whose collection is at 60. *)
Lemma case_bridge :
  bridge_instantiate 61 = Ok 61 /\
  bridge_callback 61 61 60 [31; 32; 33] (Some (105, 7)) =
    Ok [plain (WasmExecute 60 (ToCw721 (Cw721Send 7 31 (NStake 105))) []);
        plain (WasmExecute 60 (ToCw721 (Cw721Send 7 32 (NStake 105))) []);
        plain (WasmExecute 60 (ToCw721 (Cw721Send 7 33 (NStake 105))) [])] /\
  bridge_callback 61 61 60 [31] None = Ok [] /\ bridge_callback 61 62 60 [31] (Some (105, 7)) = Err EUnauthorized /\
  is_ok (receive_all ex_moracle (at_block 20) 60 105 nft_st [31; 32; 33]) = true.
Proof. do 4 (split; [vm_compute; reflexivity|]). vm_compute. reflexivity. Qed.
