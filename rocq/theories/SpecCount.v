(** How many frames a file of a given size can hold. Header and screen descriptor are 13 bytes; an image is at least 13
    bytes: introducer, 9 bytes of descriptor, code size, the first block's length, and the end of the data. Only the last
    image may lack its end when it is announced. *)
From Verif Require Import Base Common Reader.
Open Scope N_scope.

Definition frames_fit (frames bytes : nat) : Prop := (frames = 0 \/ 13 + 13 * frames <= bytes + 1)%nat.

(** What a caller of the decoder sees: calls that went well, and how many of them announced or read a frame. *)
Definition went_well (y : dout) : Prop :=
  match y with
  | OutBool x => exists b, x = Ok b
  | OutInto _ x => x = Ok tt
  | OutFill _ x => exists b, x = Ok b
  end.
Definition is_new_frame (y : dout) : bool := match y with OutBool (Ok b) => b | _ => false end.
Definition new_frames (ys : list dout) : nat := length (filter is_new_frame ys).
Definition is_item_frame (x : item) : bool := match x with IFrame _ => true | _ => false end.
Definition item_frames (xs : list item) : nat := length (filter is_item_frame xs).

(** All bytes of a source. *)
Definition bytes_of (src : list revent) : nat := length (concat (map ev_bytes src)).
