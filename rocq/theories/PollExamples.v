(** Concrete histories of the governance contract, used to show that hypotheses can be met. *)
From Verif Require Import Base OMap PollModel PollSpec.

Definition ex_admin : addr := 7.
Definition pct (n : N) : N := n * 10 ^ 16.
Definition ex_call (t : N) (m : gov_msg) : gov_call := mk_gcall (mk_env t (t / 10)) ex_admin m.

(** poll 1: open from 10 to 1000, quorum 30%, threshold 50%, veto threshold 33% *)
Definition ex_create : gov_msg := GCreatePoll (mk_create 50 0 1000 (pct 30) (pct 50) (Some (pct 33))).
Definition ex_open : list gov_call :=
  [ ex_call 10 ex_create;
    ex_call 20 (GCastVote 1 Yes 101 40);
    ex_call 30 (GCastVote 1 No 102 25);
    ex_call 40 (GCastVote 1 Abstain 103 5) ].
(** re-vote, weight update, ending *)
Definition ex_revote : list gov_call := ex_open ++ [ex_call 50 (GCastVote 1 No 101 30)].
Definition ex_update : list gov_call := ex_open ++ [ex_call 50 (GUpdateVotes 101 60)].
Definition ex_ended : list gov_call := ex_open ++ [ex_call 1000 (GEndPoll 1 100 false false)].

Definition ex_g (cs : list gov_call) : gov := gov_run (gov_init ex_admin) cs.

(** early ending: poll with quorum 10%, threshold 50% *)
Definition ex_low_quorum : list gov_call :=
  [ ex_call 10 (GCreatePoll (mk_create 50 0 1000 (pct 10) (pct 50) None));
    ex_call 20 (GCastVote 1 Yes 101 10) ].
