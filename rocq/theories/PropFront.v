(** C95: every question put to the front contract is answered by the facade of the DAO's generation. *)
From Verif Require Import Base OMap OMapLemmas Assets PollModel FundsModel MemberModel Msgs ControllerModel TreasuryModel EnterpriseModel OutpostsModel WorldModel
  WorldExamples FacadeModel FrontModel FrontSpec FrontFacts FrontCases.

(** The addresses of the two facades are the last that a migration has given; nothing that anybody can send changes them. *)
Theorem C95_addresses : forall a b l g,
  let f := front_run (mk_front a b) l in last_given g (facade_for (mk_front a b) g) l (facade_for f g).
Proof. exact last_addresses. Qed.
Print Assumptions C95_addresses.

Theorem C95_addresses_unique : forall g a0 l,
  forall x, last_given g a0 l x -> forall y, last_given g a0 l y -> x = y.
Proof. exact last_unique. Qed.
Print Assumptions C95_addresses_unique.

Theorem C95_started : forall v1 v2 f,
  front_instantiate v1 v2 = Ok f <-> v1 <> 0 /\ v2 <> 0 /\ f = mk_front v1 v2.
Proof. exact started_proper. Qed.
Print Assumptions C95_started.

Example C95_addresses_nonvacuous : front_instantiate 901 902 = Ok (mk_front 901 902) /\
  last_given Old 901 moved 911 /\ last_given New 902 moved 912 /\ front_run (mk_front 901 902) moved = mk_front 911 912.
Proof. exact moved_case. Qed.

(** Whatever is asked, about an address that leads to a DAO: the facade of its generation is asked the same question, with the same parameters, about that DAO, and its answer is the answer. *)
Theorem C95_passed_on : forall R (ask : addr -> front_query -> res R) f W q g d,
  leads W (about q) g d ->
  exists q', same_about q q' d /\ front_answer ask f W q = ask (facade_for f g) q'.
Proof. exact passed_on. Qed.
Print Assumptions C95_passed_on.

Theorem C95_one_question : forall q q1 q2 d,
  same_about q q1 d -> same_about q q2 d -> q1 = q2.
Proof. exact same_one. Qed.
Print Assumptions C95_one_question.

Theorem C95_one_lead : forall W a g d g' d',
  leads W a g d -> leads W a g' d' -> g = g' /\ d = d'.
Proof. exact leads_one. Qed.
Print Assumptions C95_one_lead.

Example C95_passed_nonvacuous :
  leads looks 31 Old 31 /\ leads looks 4 New 1 /\ leads looks 1 New 1 /\
  front_answer echo (mk_front 901 902) looks (QClaims 31 5) = Ok (901, 15, 31, Some 5) /\
  front_answer echo (mk_front 901 902) looks (QReleasableClaims 4 6) = Ok (902, 16, 1, Some 6) /\
  front_answer echo (mk_front 901 902) looks (QClaimAdapted 1) = Ok (902, 31, 1, None) /\
  front_answer echo (mk_front 901 902) looks (QDaoInfo 99) = Err EStd.
Proof. exact asked_case. Qed.

(** There are no other answers. *)
Theorem C95_answered_only : forall R (ask : addr -> front_query -> res R) f W q r,
  front_answer ask f W q = Ok r ->
  exists g d q', leads W (about q) g d /\ same_about q q' d /\ ask (facade_for f g) q' = Ok r.
Proof. exact answered_only. Qed.
Print Assumptions C95_answered_only.

Example C95_answered_nonvacuous :
  leads looks 31 Old 31 /\ leads looks 4 New 1 /\ leads looks 1 New 1 /\
  front_answer echo (mk_front 901 902) looks (QClaims 31 5) = Ok (901, 15, 31, Some 5) /\
  front_answer echo (mk_front 901 902) looks (QReleasableClaims 4 6) = Ok (902, 16, 1, Some 6) /\
  front_answer echo (mk_front 901 902) looks (QClaimAdapted 1) = Ok (902, 31, 1, None) /\
  front_answer echo (mk_front 901 902) looks (QDaoInfo 99) = Err EStd.
Proof. exact asked_case. Qed.

(** In the DAOs of the whole-DAO model this is how C71 to C78 pass queries on. *)
Theorem C95_dispatches : forall X R A F (w : world X) (ask : addr -> front_query -> res R) f q,
  exists pose_to,
  (forall d, same_about q (pose_to d) d) /\
  front_answer ask f (seen A F w) q = dispatch A F (fun d => ask (ff_v1 f) (pose_to d)) (fun d => ask (ff_v2 f) (pose_to d)) w (about q).
Proof. exact front_dispatches. Qed.
Print Assumptions C95_dispatches.
