(** What the iterator yields, stated from the frames that a loop over [read_next_frame] gets. *)
From Verif Require Import Base Common Lzw Stream Converter Reader.
Open Scope nat_scope.

(** A frame without bytes looks like the end. *)
Definition yielded (f : frame) : item := match f_buffer f with [] => INone | _ => IFrame f end.
(** [n] items: one per frame; then, if there was an error, the error; then nothing any more. *)
Definition items (n : nat) (fs : list frame) (x : dres bool) : list item :=
  firstn n (map yielded fs ++ match x with Err e => [IErr e] | _ => [] end ++ repeat INone n).
