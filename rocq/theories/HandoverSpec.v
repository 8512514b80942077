(** What the hand-over promises, as statements about the events of a run. *)
From Verif Require Import Base HandoverModel.

Section Spec.
Context {note : Type}.

(** Notes of voice [i] received, in order. *)
Fixpoint received (i : nat) (evs : list (hevent note)) : list note :=
  match evs with
  | [] => []
  | Received _ j n :: evs => if Nat.eqb i j then n :: received i evs else received i evs
  | _ :: evs => received i evs
  end.

(** Notes of voice [i] that were the latest ones at a hand-over, in order;
    [staged] is the latest note since the last hand-over. *)
Fixpoint handed (i : nat) (staged : option note) (evs : list (hevent note)) : list note :=
  match evs with
  | [] => []
  | Sent _ j n :: evs => handed i (if Nat.eqb i j then Some n else staged) evs
  | Handed _ :: evs => match staged with Some n => n :: handed i None evs | None => handed i None evs end
  | Received _ _ _ :: evs => handed i staged evs
  end.

(** All notes sent to voice [i], in order. *)
Fixpoint sent (i : nat) (evs : list (hevent note)) : list note :=
  match evs with
  | [] => []
  | Sent _ j n :: evs => if Nat.eqb i j then n :: sent i evs else sent i evs
  | _ :: evs => sent i evs
  end.

(** The note of voice [i] waiting for the next hand-over. *)
Fixpoint waiting (i : nat) (staged : option note) (evs : list (hevent note)) : option note :=
  match evs with
  | [] => staged
  | Sent _ j n :: evs => waiting i (if Nat.eqb i j then Some n else staged) evs
  | Handed _ :: evs => waiting i None evs
  | Received _ _ _ :: evs => waiting i staged evs
  end.

(** [l] is obtained from [l'] by leaving elements out. *)
Inductive sublist {A} : list A -> list A -> Prop :=
| sl_nil : sublist [] []
| sl_keep x l l' : sublist l l' -> sublist (x :: l) (x :: l')
| sl_skip x l l' : sublist l l' -> sublist l (x :: l').

(** The buffer a step of either thread accesses (other than the atomic pointer). *)
Definition e_access (s : hstate note) (l : label note) : option bool :=
  match l with LSend _ _ _ | LClear _ => Some (h_outgoing _ s) | _ => None end.
Definition a_access (s : hstate note) (l : label note) : option bool :=
  match l with
  | LRecv _ => match h_apc _ s with ARead b _ => Some b | AIdle => None end
  | _ => None
  end.
Definition enabled (acq : bool) (s : hstate note) (l : label note) : Prop := hstep note acq l s <> None.
Definition is_send (l : label note) : Prop := match l with LSend _ _ _ => True | _ => False end.

End Spec.
