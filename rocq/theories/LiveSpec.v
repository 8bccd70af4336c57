(** When can a proposal be resolved? *)
From Verif Require Import Base OMap Assets PollModel FundsModel MemberModel MemberSpec Msgs ControllerModel ControllerSpec TreasuryModel
  EnterpriseModel OutpostsModel WorldModel WorldSpec.

Section Live.
Context {X : Type}.

(** Calls without coins cost nothing (gas apart). *)
Definition free_calls (Out : outside X) : Prop := forall x a b, x_pay Out x a b [] = Ok x.

(** The total weight there was at time [when] for proposals of type [t]. *)
Definition weight_then (w : world X) (t : proposal_type) (when : N) : N :=
  query_total_weight (members_of (match t with General => w_member w | Council => w_council w end)) (AtTime when).

(** Handing over a deposit. *)
Definition handing (to : addr) (a : deposit_asset) : list sub_msg :=
  match a with
  | DDenom d n => [mk_sub (BankSend to [(d, n)]) ReplyNever]
  | DCw20 t n => [mk_sub (WasmExecute t (ToCw20 (Cw20Transfer to n)) []) ReplyNever]
  | DCw721 c ts => map (fun t => mk_sub (WasmExecute c (ToCw721 (Cw721Transfer to t)) []) ReplyNever) ts
  end.

(** What is handed over with verdict [v]: the deposit (of a general proposal) to its [receiver]. *)
Definition handed (A : addrs) (p : proposal_info) (v : poll_status) : list sub_msg :=
  match pi_deposit p, pi_type p, v with
  | Some d, General, _ | Some d, Council, Passed _ _ => handing (receiver (a_treasury A) (dp_depositor d) v) (dp_asset d)
  | _, _, _ => []
  end.

Definition ask_resolution (A : addrs) (id : N) : cosmos_msg := WasmExecute (a_controller A) (ToController (CExecuteProposal id)) [].

(** The DAO when the verdict [v] on proposal [id] has been recorded, at the request of [s]: the proposal is marked,
    the poll has its verdict; two messages have been delivered; all else is as before. *)
Definition judged (A : addrs) (w : world X) (e : env) (s : addr) (id : N) (p : proposal_info) (pl : poll) (total : N) (v : poll_status) : world X :=
  let c := w_ctl w in
  let early := match pi_type p with General => gc_allow_early (ct_config c) | Council => true end in
  mk_world (w_enterprise w)
    (mk_ctl (ct_enterprise c) (ct_config c) (ct_council c)
       (oset (ct_proposals c) id (mk_info (pi_type p) (Some e) (pi_earliest p) (pi_deposit p) (pi_actions p)))
       (ct_creation c) (ct_treasuries c) (ct_creating c) None (ct_voting c))
    (mk_gov (g_admin (w_gov w)) (g_count (w_gov w))
       (oset (g_polls (w_gov w)) id (mk_poll (p_id pl) (p_proposer pl) (p_deposit pl) v (p_started_at pl) (p_ends_at pl) (p_quorum pl) (p_threshold pl)
          (p_veto_threshold pl) (p_results pl))) (g_votes (w_gov w)))
    (w_member w) (w_council w) (w_funds w) (w_treasury w) (w_outposts w)
    ((a_controller A, WasmExecute (a_governance A) (ToGovernance (GEndPoll id total false early)) []) :: (s, ask_resolution A id) :: w_log w)
    (w_upgraded w) (w_ext w).

(** The rest of the resolution, from the DAO [w1] with the recorded verdict to [w']: after a passing vote the actions are run; if
    they fail, all their effects are dropped; then the deposit is handed over. Running the actions must come to an end. *)
Definition concluded (Out : outside X) (A : addrs) (e : env) (id : N) (dep : list sub_msg) (v : poll_status) (w1 w' : world X) : Prop :=
  exists w2, (exists k, go Out A k w2 e (JSubs (a_controller A) dep) = Ok (w', None)) /\
    match v with
    | Passed _ _ =>
        exists k, (exists d, go Out A k w1 e (JMsg (a_controller A) (run_order A id)) = Ok (w2, d)) \/
          (w2 = w1 /\ exists x, go Out A k w1 e (JMsg (a_controller A) (run_order A id)) = Err x /\ x <> EGas)
    | _ => w2 = w1
    end.

(** The contract was created by the time [now], and the weights it took over from an older contract, if any, are in
    order of time and not from the future. *)
Definition created_by (now : N) (st : member_state) : Prop :=
  exists e i, member_instantiate e i = Ok st /\ ts_seconds (e_time e) <= ts_seconds now /\
    ordered_upto (ts_seconds (e_time e)) (checkpoints_by_seconds i).

End Live.
