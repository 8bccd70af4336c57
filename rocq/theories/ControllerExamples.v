(** Concrete cases of the controller together with the governance contract it administers. *)
From Verif Require Import Base OMap Assets PollModel PollSpec FundsModel MemberModel Msgs ControllerModel ControllerSpec.

Definition hundredths (n : N) : N := n * 10 ^ 16.
(** enterprise 1, governance 2, controller 3, treasury 4, outposts 5, funds distributor 6, membership 7, council 8 *)
Definition ex_comp : components := mk_components 2 3 4 5 6 7 8 None.
Definition CTL : addr := 3.
Definition at_time (s : N) : env := mk_env (s * NANOS) s.

(** Weights: [w] members, [cw] council; totals [tot], [ctot]; 666 is restricted; factory 9 created everything;
    NFT 60: token 1 of user 11, token 2 of user 12 with an approval for 11. *)
Record scene := mk_scene { sc_type : dao_type; sc_w : N -> N; sc_cw : N -> N; sc_tot : N; sc_ctot : N }.
Definition ex_oracle (k : scene) (g : gov) : ctl_oracle :=
  mk_ctl_oracle (Ok (sc_type k)) (Ok 100) (Ok ex_comp) (fun u => Ok (u =? 666))
    (fun a u => Ok (if a =? 7 then sc_w k u else sc_cw k u))
    (fun a _ => Ok (if a =? 7 then sc_tot k else sc_ctot k))
    (fun _ => Ok 50) (fun _ => Ok 70) (fun _ => Ok 60)
    (fun _ id => query_poll g id)
    (fun _ id avail => match query_poll g id with Ok p => Ok (final_status p avail, p_ends_at p) | Err x => Err x end)
    (fun _ f sa l => Ok (query_polls g f sa None (Some l) false))
    (fun _ t => if t =? 1 then Ok (11, []) else if t =? 2 then Ok (12, [13; 11]) else Err EStd)
    (Ok 9).

Lemma ex_asks k g : asks_governance (ex_oracle k g) ex_comp g.
Proof. split; [reflexivity|]. split; intros; reflexivity. Qed.

(** The controller and all calls its governance contract has received. *)
Definition both : Type := ctl * list gov_call.
Definition gov_of (b : both) : gov := gov_run (gov_init CTL) (snd b).

(** One call: the handler, the governance message it asks for, the reply. *)
Definition feed (k : scene) (b : both) (e : env) (sender : addr) (coins : list coin) (m : controller_msg)
    : res (both * list sub_msg) :=
  '(s, out) <- ctl_execute (ex_oracle k (gov_of b)) CTL (fst b) e sender coins m ;;
  match out with
  | mk_sub (WasmExecute _ (ToGovernance gm) _) rep :: rest =>
      '(g, d) <- gov_execute (gov_of b) e CTL gm ;;
      let cs := snd b ++ [mk_gcall e CTL gm] in
      match rep with
      | ReplySuccess id =>
          '(s, out) <- ctl_reply (ex_oracle k g) CTL s e id (ROk d) ;; Ok ((s, cs), out ++ rest)
      | _ => Ok ((s, cs), rest)
      end
  | _ => Ok ((s, snd b), out)
  end.
Definition feeds (k : scene) (b : both) (l : list (N * addr * list coin * controller_msg)) : both :=
  fold_left (fun b x => let '(t, sender, coins, m) := x in
                        match feed k b (at_time t) sender coins m with Ok (b', _) => b' | Err _ => b end) l b.

Definition ex_gov_config (dep : option N) : gov_config :=
  mk_gov_config (hundredths 30) (hundredths 50) None 1000 dep true.
Definition ex_council : council_spec :=
  mk_council_spec [21; 22; 23] (hundredths 50) (hundredths 50) (Some [TUpdateMetadata; TUpgradeDao]).
Definition ex_deploy : deploy_spec := mk_deploy_spec (mk_cross_spec 900 1 2 3 4 5 6 None) None None 31 32 33.
Definition start (t : dao_type) (dep : option N) : both :=
  (match ctl_instantiate (at_time 50) 1 t (ex_gov_config dep) (Some ex_council) [] (Some [ex_deploy]) with
   | Ok s => s
   | Err _ => mk_ctl 0 (ex_gov_config None) None oempty 0 None None None None
   end, []).

(** 11 has 60 of 100, 12 has 40; council members 21, 22, 23 have one vote each. *)
Definition weight_of (u : N) : N := if u =? 11 then 60 else if u =? 12 then 40 else 0.
Definition council_of (u : N) : N := if (21 <=? u) && (u <=? 23) then 1 else 0.
Definition den : scene := mk_scene DaoDenom weight_of council_of 100 3.
Definition msig : scene := mk_scene DaoMultisig weight_of council_of 100 3.
Definition nft : scene := mk_scene DaoNft weight_of council_of 100 3.
Definition tok : scene := mk_scene DaoToken weight_of council_of 100 3.
(** everybody left *)
Definition deserted : scene := mk_scene DaoDenom (fun _ => 0) council_of 0 3.
(** an even split *)
Definition even : scene := mk_scene DaoDenom (fun u => if (u =? 11) || (u =? 12) then 50 else 0) council_of 100 3.

Definition longer_votes : gov_config_update := mk_gov_config_update NoChange NoChange NoChange (Change 5000) NoChange NoChange NoChange.
Definition ex_actions : list proposal_action :=
  [PUpdateMinimumWeight 5; PUpdateGovConfig longer_votes; PRequestFunding None 11 [(Native 70, 8)];
   PExecuteMsgs [Some (BankSend 12 [(70, 1)])]].

(** a deposit of 25 for 14, a yes vote with 60 of 100 at 200 *)
Definition denom_proposed : both := feeds den (start DaoDenom (Some 20)) [(100, 11, [(70, 25); (71, 9)], CCreateProposal ex_actions (Some 14))].
Definition denom_voted : both := feeds den denom_proposed [(200, 11, [], CCastVote 1 Yes)].
Definition denom_done : both := feeds den denom_voted [(300, 12, [], CExecuteProposal 1)].
(** nobody votes *)
Definition denom_lost : both := feeds den denom_proposed [(1100, 12, [], CExecuteProposal 1)].
(** an even split *)
Definition denom_drawn : both := feeds even denom_proposed [(200, 11, [], CCastVote 1 Yes); (201, 12, [], CCastVote 1 No)].
(** a council proposal with two votes of three *)
Definition council_voted : both :=
  feeds den (start DaoDenom (Some 20))
    [(100, 21, [], CCreateCouncilProposal [PUpgradeDao 101 []]); (110, 21, [], CCastCouncilVote 1 Yes); (120, 22, [], CCastCouncilVote 1 Yes)].
Definition council_done : both := feeds den council_voted [(130, 12, [], CExecuteProposal 1)].

Definition proposal_of (b : both) (id : N) : option proposal_info := oget (ct_proposals (fst b)) id.
Definition status_of (b : both) (id : N) : option poll_status := option_map p_status (oget (g_polls (gov_of b)) id).
