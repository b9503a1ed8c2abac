(** Model of pallets/avn-offence-handler (lib.rs, whole pallet): what happens to a validator somebody reported.
    Line numbers are those of lib.rs. *)
From Verif Require Import Base.

(** 74-83 [Event], plus two entries that are not events of this pallet: a call of the enforcer
    (pallets/avn/src/lib.rs:709-718 [Enforcer::slash_validator], with its outcome) and the notice that a validator registered. *)
Inductive entry :=
| Reported (v : N)
| SettingUpdated (enabled : bool)
| SlashCalled (v : N) (ok : bool)
| Registered (v : N).
#[export] Instance entry_eq : EqDecision entry. Proof. solve_decision. Defined.

(** 88-97 storage ([ReportedOffenders], [SlashingEnabled]); [s_trace] is everything that happened, newest first.  The value-query
    map is used with [contains_key], so presence matters. *)
Record st := mkSt { s_reported : gmap N bool; s_enabled : bool; s_trace : list entry }.
#[export] Instance eta_st : Settable _ := settable! mkSt <s_reported; s_enabled; s_trace>.
Definition emit (e : entry) : st -> st := set s_trace (cons e).

(** 101-111 [configure_slashing]. *)
Definition configure_slashing (root enabled : bool) : M st unit :=
  ensure root "BadOrigin" ;;;
  modify (set s_enabled (fun _ => enabled)) ;;;
  modify (emit (SettingUpdated enabled)).

(** 116-118 [setup_for_new_validator], called by 162-166 [on_validator_registration]. *)
Definition on_validator_registration (v : N) (s : st) : st :=
  emit (Registered v) (set s_reported (fun m => base.delete v m) s).

(** 136-156 [on_offence], the closure for one offender with the filter (evaluated just before it); [answer] is the enforcer's answer.
    The weight returned is not modelled. *)
Definition handle_offender (answer : N -> bool) (s : st) (v : N) : st :=
  if bool_decide (is_Some (s_reported s !! v)) then s else
  let s := emit (Reported v) s in
  let s' := if s_enabled s then emit (SlashCalled v (answer v)) s else s in
  let result := if s_enabled s then answer v else false in
  set s_reported (fun m => <[v := result]> m) s'.
(** 123-159 [on_offence]: the slash fractions and the session are ignored. *)
Definition on_offence (answer : N -> bool) (offenders : list N) (s : st) : st :=
  foldl (handle_offender answer) s offenders.

Inductive op :=
| Configure (root enabled : bool)
| Offence (answer : N -> bool) (offenders : list N)
| Registration (v : N).
Definition step (s : st) (o : op) : st :=
  match o with
  | Configure root enabled => (dispatch (configure_slashing root enabled) s).1
  | Offence answer offenders => on_offence answer offenders s
  | Registration v => on_validator_registration v s
  end.
(** Storage at genesis: nobody reported, slashing off (88-97, no genesis config). *)
Definition genesis : st := mkSt ∅ false [].
Definition run (ops : list op) : st := foldl step genesis ops.
