(** Specifications for the outposts contract and the bridge callback proxy. *)
From Verif Require Import Base OMap Assets MemberModel Msgs OutpostsModel.

(** The one message that asks the proxy [receiver] on another chain to run [m]: one unit of uluna is sent over
    the channel of [x], with a deadline of 15 minutes if none is given; [id] is the callback to report to. *)
Definition asks (o : op_oracle) (e : env) (receiver : N) (m : cosmos_msg) (x : cross_spec) (id : option N) (out : sub_msg) : Prop :=
  e_time e + dflt 900000000000 (x_timeout x) < M64 /\
  out = mk_sub (IbcTransfer (x_src_port x) (x_src_channel x) ULUNA 1 receiver
                  (e_time e + dflt 900000000000 (x_timeout x)) m
                  (match id with
                   | None => None
                   | Some i => Some (mk_reply_callback i (x_dest_port x) (x_dest_channel x) (x_uluna x) (oo_self o))
                   end)) ReplyNever.

Definition sent_by_controller (o : op_oracle) (sender : addr) : Prop :=
  exists c, oo_components o = Ok c /\ sender = c_controller c.

(** The id after [n]: u32 arithmetic. *)
Definition next_id (n : N) : N := (n + 1) mod 2 ^ 32.

(** Call [c] was accepted in state [s]. *)
Definition accepted (s : outposts) (c : op_call) : Prop := exists r, op_handle s c = Ok r.

(** In the history [l] from [s] there is an accepted order of the controller to deploy as [d] says. *)
Definition was_ordered (s : outposts) (l : list op_call) (d : deploy_spec) : Prop :=
  exists l1 c l2, l = l1 ++ c :: l2 /\ oc_msg c = OpDeploy d /\ accepted (op_run s l1) c /\
    sent_by_controller (oc_oracle c) (oc_sender c).

(** Only the address derived for the global proxy of [d] can have sent [c]. *)
Definition from_proxy_of (d : deploy_spec) (c : op_call) : Prop :=
  oo_derive (oc_oracle c) (x_src_channel (dt_spec d)) (dt_global_proxy d) TERRA = Ok (oc_sender c).

Definition is_callback (id : N) (c : op_call) : Prop := exists a, oc_msg c = OpCallback id a.

(** What a membership contract does with tokens that [nft] sends it one by one, to stake for [user]. *)
Fixpoint receive_all (o : member_oracle) (e : env) (nft : addr) (user : N) (st : member_state) (tokens : list N)
  : res member_state :=
  match tokens with
  | [] => Ok st
  | t :: rest =>
      r <- member_execute o st e nft [] (NftMsg (NReceive t (NStake user))) ;;
      receive_all o e nft user (fst r) rest
  end.
