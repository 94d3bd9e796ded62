(** Model of the parts of src/encoder.rs that give access to the writer, and of [Drop] without the feature
    [raii_no_panic]. *)
From Verif Require Import Base Common Lzw Encoder.
Open Scope N_scope.

(** src/encoder.rs 347-352 [get_ref]: [unwrap] panics if the writer has been taken. *)
Definition get_ref (e : encoder) : eres writer := match e_w e with Some w => Ok w | None => Panic end.

(** src/encoder.rs 354-359 [get_mut]; [g] is what the caller does with the reference. *)
Definition get_mut (e : encoder) (g : writer -> writer) : encoder * eres unit :=
  match e_w e with
  | Some w => (mk_enc (Some (g w)) (e_global_palette e) (e_width e) (e_height e) (e_buffer e), Ok tt)
  | None => (e, Panic)
  end.

(** src/encoder.rs 430-435 [Drop for Encoder] without the feature [raii_no_panic]: [unwrap] on the result of
    writing the trailer. *)
Definition encoder_drop_strict (e : encoder) : encoder * eres unit :=
  match e_w e with
  | None => (e, Ok tt)
  | Some _ =>
    let '(e1, r) := write_trailer e in
    match r with Ok _ => (e1, Ok tt) | Hang => (e1, Hang) | _ => (e1, Panic) end
  end.
(** A function that returns [r] while the encoder [e] goes out of scope: a panic of [drop] takes the place of
    the result. *)
Definition returning {A} (e : encoder) (r : eres A) : encoder * eres A :=
  let '(e1, d) := encoder_drop_strict e in
  match d with Ok _ => (e1, r) | Hang => (e1, Hang) | _ => (e1, Panic) end.

(** src/encoder.rs 136-143 [Encoder::new] without [raii_no_panic]: on an error the new encoder is dropped. *)
Definition encoder_new_strict (w : writer) (width height : N) (global_palette : list N) : encoder * eres unit :=
  let e := mk_enc (Some w) false width height [] in
  let '(e', r) := write_global_palette e global_palette in
  match r with
  | Ok _ => (e', Ok tt)
  | _ => returning e' r
  end.

(** src/encoder.rs 362-365 [into_inner] without [raii_no_panic]. *)
Definition into_inner_strict (e : encoder) : encoder * eres writer :=
  let '(e1, r) := write_trailer e in
  match r with
  | Ok _ =>
    match e_w e1 with
    | Some w => returning (mk_enc None (e_global_palette e1) (e_width e1) (e_height e1) (e_buffer e1)) (Ok w)
    | None => returning e1 (Err (EIo Unsupported))
    end
  | Err er => returning e1 (Err er)
  | Panic => returning e1 Panic
  | Hang => returning e1 Hang
  end.
