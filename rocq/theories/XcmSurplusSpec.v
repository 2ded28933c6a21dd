(** Vocabulary for what messages use of the weight set aside for them. *)
From Verif Require Import Base XcmTypes AssetLocationModel OriginTypes AccountsModel XcmConfigModel XcmCountable XcmExecModel XcmTraderSpec.
From stdpp Require Import gmap.
Open Scope N_scope.

(** The instructions that the next [n] steps carry out or fail to, each with the message as it is then. *)
Fixpoint tried (e : xenv) (n : nat) (m : machine) : list (machine * xinstr) :=
  match n with
  | O => []
  | S n' =>
      match m_prog m with [] => [] | i :: p => [(xset_prog p m, i)] end ++
      match xstep e m with XOk m' => tried e n' m' | _ => [] end
  end.

(** What an instruction uses: what it weighs and, for calls, what the call uses or, if it is not dispatched, all that was set aside for it. *)
Definition call_part (e : xenv) (m : machine) (i : xinstr) : weight :=
  match i with
  | XTransact _ most call => match exec_instr e m i with XOk _ => xe_call_used e m call | _ => most end
  | _ => (0, 0)
  end.
Definition used_time (e : xenv) (l : list (machine * xinstr)) : N := foldr (fun q acc => fst (instr_weight (snd q)) + fst (call_part e (fst q) (snd q)) + acc) 0 l.
Definition used_proof (e : xenv) (l : list (machine * xinstr)) : N := foldr (fun q acc => snd (instr_weight (snd q)) + snd (call_part e (fst q) (snd q)) + acc) 0 l.

(** Calls use no more than they declare. *)
Definition honest_calls (e : xenv) : Prop :=
  forall m call, fst (xe_call_used e m call) <= fst (xe_call_weight e call) /\ snd (xe_call_used e m call) <= snd (xe_call_weight e call).

(** A message from [origin], let through as [p], runs to its end [m] in [n] steps. *)
Definition runs (e : xenv) (ch : chain) (origin : location) (p : list xinstr) (n : nat) (m : machine) : Prop :=
  xsteps e n (start ch origin p) = XOk m /\ halted m = true.
