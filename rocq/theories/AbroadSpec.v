(** What a DAO says to other chains, and on what occasion, independently of how the model computes. *)
From Verif Require Import Base OMap Assets PollModel FundsModel MemberModel Msgs ControllerModel TreasuryModel EnterpriseModel OutpostsModel
  WorldModel WorldSpec OrderSpec.

Definition to_outposts (A : addrs) (om : outposts_msg) (coins : list coin) : cosmos_msg := WasmExecute (a_outposts A) (ToOutposts om) coins.

(** What goes over the channel of [x] to [receiver]: one uluna, with an order to run, and where to report to. *)
Definition parcel (x : cross_spec) (receiver deadline : N) (order : cosmos_msg) (report : option reply_callback) : cosmos_msg :=
  IbcTransfer (x_src_port x) (x_src_channel x) ULUNA 1 receiver deadline order report.
Definition report_to (A : addrs) (x : cross_spec) (id : N) : reply_callback :=
  mk_reply_callback id (x_dest_port x) (x_dest_channel x) (x_uluna x) (a_outposts A).

(** The order to make a proxy on another chain, which obeys [owner]: the address of the outposts contract as seen from there. *)
Definition proxy_order {X} (Out : outside X) (A : addrs) (d : deploy_spec) (m : cosmos_msg) : Prop :=
  exists deadline owner id, x_derive Out (x_dest_channel (dt_spec d)) (a_outposts A) (x_prefix (dt_spec d)) = Ok owner /\
    m = parcel (dt_spec d) (dt_global_proxy d) deadline (WasmInstantiate None (dt_proxy_code d) (InitProxy owner)) (Some (report_to A (dt_spec d) id)).
(** The order to make a treasury there, which obeys the proxy [p] (as its admin, and for migrations). *)
Definition treasury_order (A : addrs) (d : deploy_spec) (p : N) (m : cosmos_msg) : Prop :=
  exists deadline id,
    m = parcel (dt_spec d) (dt_global_proxy d) deadline
          (WasmInstantiate (Some p) (dt_treasury_code d) (InitTreasury p (dt_assets d) (dt_nfts d))) (Some (report_to A (dt_spec d) id)).

(** The controller has ordered, in [l], to deploy as [d] says. *)
Definition deployment_in (A : addrs) (l : list (addr * cosmos_msg)) (d : deploy_spec) : Prop :=
  exists coins, In (a_controller A, to_outposts A (OpDeploy d) coins) l.
(** [s] is the address, as seen from here, of the proxy that deploys for [d]. *)
Definition speaks_for {X} (Out : outside X) (d : deploy_spec) (s : addr) : Prop :=
  x_derive Out (x_src_channel (dt_spec d)) (dt_global_proxy d) TERRA = Ok s.

(** What a call [om] by [s] to the outposts contract [o] makes it send, if [l] has been delivered before. *)
Inductive answered {X} (Out : outside X) (A : addrs) (o : outposts) (l : list (addr * cosmos_msg)) (s : addr) : outposts_msg -> list cosmos_msg -> Prop :=
| an_remote tm x p t deadline : s = a_controller A -> oget (op_proxies o) (x_chain x) = Some p -> oget (op_treasuries o) (x_chain x) = Some t ->
    answered Out A o l s (OpExecute tm x) [parcel x p deadline (WasmExecute t (ToTreasury tm) []) None]
| an_proxy d m : s = a_controller A -> proxy_order Out A d m -> answered Out A o l s (OpDeploy d) [m]
| an_treasury d p m : s = a_controller A -> oget (op_proxies o) (x_chain (dt_spec d)) = Some p -> treasury_order A d p m ->
    answered Out A o l s (OpDeploy d) [m]
| an_next id d p m : deployment_in A l d -> speaks_for Out d s -> oget (op_proxies o) (x_chain (dt_spec d)) = Some p -> treasury_order A d p m ->
    answered Out A o l s (OpCallback id (Some p)) [m]
| an_done id d t : deployment_in A l d -> speaks_for Out d s -> oget (op_treasuries o) (x_chain (dt_spec d)) = Some t ->
    answered Out A o l s (OpCallback id (Some t)) [].

(** [made] was reported as the contract on chain [ch] by the proxy that was to deploy there. *)
Definition reported {X} (Out : outside X) (A : addrs) (log : list (addr * cosmos_msg)) (ch made : N) : Prop :=
  exists s id coins before d, sent_after log s (to_outposts A (OpCallback id (Some made)) coins) before /\
    deployment_in A before d /\ x_chain (dt_spec d) = ch /\ speaks_for Out d s.

(** The order to a treasury on another chain that an action is. *)
Definition order_abroad (a : proposal_action) : option (treasury_msg * cross_spec) :=
  match a with
  | PUpdateAssets (Some x) add remove => Some (TrUpdateAssets add remove, x)
  | PUpdateNfts (Some x) add remove => Some (TrUpdateNfts add remove, x)
  | PRequestFunding (Some x) to assets => Some (TrSpend to assets, x)
  | PExecuteTreasuryMsgs msgs (Some x) => Some (TrExecute msgs, x)
  | _ => None
  end.
