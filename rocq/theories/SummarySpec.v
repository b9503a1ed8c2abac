(** What the summary properties talk about: lists read off the event log, and tilings. *)
From Verif Require Import Base AvnModel SummaryModel.

(** Ranges whose root was approved by vote, oldest first. *)
Definition approved_ranges (evs : list event) : list (N * N) :=
  omap (fun e => match e with EvRootValidated rid _ => Some (fst rid) | _ => None end) (rev evs).
(** Roots handed over for publication: sent to Ethereum or recorded as anchors. *)
Definition published (evs : list event) : list (N * N * N) :=
  omap (fun e => match e with EvPublished rid _ _ => Some rid | EvAnchored rid _ _ => Some rid | _ => None end) evs.
(** Counted ballots: who voted on which root. *)
Definition ballots (evs : list event) : list (N * (N * N * N)) :=
  omap (fun e => match e with EvVoteAdded w rid _ => Some (w, rid) | _ => None end) evs.
(** Roots whose vote has ended. *)
Definition ended (evs : list event) : list (N * N * N) :=
  omap (fun e => match e with EvVotingEnded rid _ => Some rid | _ => None end) evs.
(** Slots reported as having produced no summary. *)
Definition void_slots (evs : list event) : list N :=
  omap (fun e => match e with EvNoSummary _ slot => Some slot | _ => None end) evs.

(** [tiles a l b]: the ranges in [l] are non-empty intervals that cover exactly the blocks from [a]
    up to but excluding [b], each starting right after the previous one ends. *)
Inductive tiles : N -> list (N * N) -> N -> Prop :=
| tiles_nil a : tiles a [] a
| tiles_cons a t l b : a <= t -> tiles (t + 1) l b -> tiles a ((a, t) :: l) b.

(** An operation that changes the schedule period (root origin). *)
Definition changes_schedule (o : op) : bool :=
  match o with OpSetPeriods _ _ => true | OpAdmin (CfgSchedule _) => true | _ => false end.

(** A history in which the schedule period is only changed while no root is awaiting approval. *)
Fixpoint calm (c : config) (s : st) (ops : list op) : Prop :=
  match ops with
  | [] => True
  | o :: r => (changes_schedule o = true -> s_pending s = ∅) /\ calm c (step c s o) r
  end.

(** Who voted for (against) a root, newest first. *)
Definition yes_votes (rid : N * N * N) (evs : list event) : list N :=
  omap (fun e => match e with EvVoteAdded w r true => if decide (r = rid) then Some w else None | _ => None end) evs.
Definition no_votes (rid : N * N * N) (evs : list event) : list N :=
  omap (fun e => match e with EvVoteAdded w r false => if decide (r = rid) then Some w else None | _ => None end) evs.

(** The slot the chain was in after the log [evs] (newest first): slot 0 until the first advance. *)
Fixpoint slot_at (evs : list event) : N :=
  match evs with
  | [] => 0
  | EvSlotAdvanced _ n _ _ :: _ => n
  | _ :: r => slot_at r
  end.
(** The slots during which some root was approved. *)
Fixpoint approval_slots (evs : list event) : list N :=
  match evs with
  | [] => []
  | EvRootValidated _ _ :: r => slot_at r :: approval_slots r
  | _ :: r => approval_slots r
  end.
