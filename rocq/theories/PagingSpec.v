(** Reading a listing page by page. *)
From Verif Require Import Base OMap PollModel MemberModel Msgs ControllerModel WorldModel WorldSpec FacadeModel.

(** What a client reads that asks for pages, each after the key of the last entry of the page before, until a page is
    empty. *)
Fixpoint read_listing {T} (fuel : nat) (key : T -> N) (page : option N -> res (list T)) (start : option N) : res (list T) :=
  match fuel with
  | O => Ok []
  | S n =>
      l <- page start ;;
      match l with
      | [] => Ok []
      | x :: t => rest <- read_listing n key page (Some (key (last t x))) ;; Ok (l ++ rest)
      end
  end.

(** The client reads exactly [all], in this order, if it asks often enough. *)
Definition reads {T} (key : T -> N) (page : option N -> res (list T)) (all : list T) : Prop :=
  forall fuel, (length all < fuel)%nat -> read_listing fuel key page None = Ok all.

(** The listing in an answer of the facade. *)
Definition in_answer {T} (get : facade_answer -> option (list T)) (r : res facade_answer) : res (list T) :=
  a <- r ;; ok_or (get a) EStd.
Definition proposals_in (a : facade_answer) : option (list facade_proposal) := match a with AnProposals l => Some l | _ => None end.
Definition votes_in (a : facade_answer) : option (list vote) := match a with AnVotes l => Some l | _ => None end.
Definition members_in (a : facade_answer) : option (list (N * N)) := match a with AnMembers l => Some l | _ => None end.
Definition nfts_in (a : facade_answer) : option (list N) :=
  match a with AnStaked l => Some l | AnStake (USNft l _) => Some l | _ => None end.
Definition treasuries_in (a : facade_answer) : option (list (N * N)) := match a with AnTreasuries l => Some l | _ => None end.

(** The votes on a poll, in the order of the voters. *)
Definition votes_on_poll (g : gov) (id : N) : list vote :=
  flat_map (fun kv => match oget (snd kv) id with Some v => [v] | None => [] end) (elems (g_votes g)).

(** No proposal whose actions were run used [ExecuteMsgs] to open a poll at the governance contract. *)
Definition no_side_polls {X} (A : addrs) (w : world X) : Prop :=
  forall id p m coins c more, In (a_controller A, WasmExecute (a_controller A) (ToController (CExecuteActions id)) coins) (w_log w) ->
    oget (ct_proposals (w_ctl w)) id = Some p -> In m (customs p) -> m <> WasmExecute (a_governance A) (ToGovernance (GCreatePoll c)) more.
