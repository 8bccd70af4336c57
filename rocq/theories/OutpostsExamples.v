(** A concrete deployment on another chain. *)
From Verif Require Import Base OMap Assets MemberModel Msgs OutpostsModel.

Definition OWN : N := 5.
Definition BOSS : N := 3.
Definition derive (channel sender prefix : N) : res N :=
  if prefix =? 0 then Err EStd else Ok (100000 * channel + 10 * sender + prefix).
Definition oo : op_oracle := mk_op_oracle OWN (Ok (mk_components 2 BOSS 4 OWN 6 7 8 None)) derive.
Definition to_juno : cross_spec := mk_cross_spec 70 2 11 12 13 14 15 None.
Definition to_osmo : cross_spec := mk_cross_spec 71 3 11 22 13 24 25 (Some 60).
Definition d_juno : deploy_spec := mk_deploy_spec to_juno (Some [Native 7]) None 801 802 900.
Definition d_juno2 : deploy_spec := mk_deploy_spec to_juno None None 801 803 901.
Definition d_osmo : deploy_spec := mk_deploy_spec to_osmo None (Some [44]) 801 802 910.
Definition at_ (t : N) : env := mk_env (t * 1000000000) t.
Definition from_proxy (x : cross_spec) (gp : N) : N := 100000 * x_src_channel x + 10 * gp + 1.
Definition op_c (t sender : N) (m : outposts_msg) : op_call := mk_op_call oo (at_ t) sender m.

Definition op0 : outposts := mk_outposts 1 oempty oempty oempty 0.
(** Two orders for juno, one for osmo; the first proxy of juno reports, then the second (refused), then the
    treasury of juno; a stranger reports for osmo (refused). *)
Definition op_calls : list op_call :=
  [op_c 1 BOSS (OpDeploy d_juno);
   op_c 2 BOSS (OpDeploy d_juno2);
   op_c 3 BOSS (OpDeploy d_osmo);
   op_c 4 (from_proxy to_juno 900) (OpCallback 1 (Some 9001));
   op_c 5 (from_proxy to_juno 901) (OpCallback 2 (Some 9002));
   op_c 6 (from_proxy to_juno 900) (OpCallback 4 (Some 9003));
   op_c 7 66 (OpCallback 3 (Some 9004));
   op_c 8 (from_proxy to_juno 900) (OpCallback 1 (Some 9005))].
