(** A concrete LZW codec in the GIF variant (LSB-first, variable width up to 12 bits), written for
    this development. It stands in for [weezl] in the executable examples, and the lemma
    [lzw_ref_spec] shows that the contract [lzw_spec] can be met. Nothing here is a model of
    code in /repo. *)
From Verif Require Import Base Lzw.
Open Scope N_scope.

(** [w] bits of [n], least significant first. *)
Fixpoint nbits (w : nat) (n : N) : list bool :=
  match w with O => [] | S w' => N.odd n :: nbits w' (N.div2 n) end.
Fixpoint bits_val (bs : list bool) : N :=
  match bs with
  | [] => 0
  | b :: r => (if b then 1 else 0) + 2 * bits_val r
  end.

Fixpoint pack_fuel (fuel : nat) (bs : list bool) : list N :=
  match fuel with
  | O => []
  | S fuel' =>
    match bs with
    | [] => []
    | _ => bits_val (firstn 8 bs) :: pack_fuel fuel' (skipn 8 bs)
    end
  end.
Definition pack (bs : list bool) : list N := pack_fuel (length bs) bs.
Definition unpack (l : list N) : list bool := concat (map (nbits 8) l).

(** Codes. *)
Definition clear_code (m : N) : N := 2 ^ m.
Definition eoi_code (m : N) : N := 2 ^ m + 1.
Definition width (m : N) (prev : option (list N)) (dict : list (list N)) : nat :=
  match prev with
  | None => N.to_nat (m + 1)
  | Some _ => Nat.min 12 (N.to_nat (N.log2 (2 ^ m + 2 + N.of_nat (length dict)) + 1))
  end.

Inductive action := AClear | AEnd | AWord (w : list N) | ABad.
Definition lookup (m : N) (prev : option (list N)) (dict : list (list N)) (code : N) : action :=
  if code <? 2 ^ m then AWord [code]
  else if code =? clear_code m then AClear
  else if code =? eoi_code m then AEnd
  else
    let i := N.to_nat (code - (2 ^ m + 2)) in
    match nth_error dict i, prev with
    | _, None => ABad
    | Some w, Some _ => AWord w
    | None, Some p =>
      if (i =? length dict)%nat
      then match p with [] => ABad | h :: _ => AWord (p ++ [h]) end
      else ABad
    end.
Definition add_entry (m : N) (prev : option (list N)) (dict : list (list N)) (w : list N)
  : list (list N) :=
  match prev, w with
  | Some p, h :: _ =>
    if 2 ^ m + 2 + N.of_nat (length dict) <? 4096 then dict ++ [p ++ [h]] else dict
  | _, _ => dict
  end.

(** Streaming decoder. *)
Record dst := mk_dst {
  ds_m : N;
  ds_bits : list bool;
  ds_dict : list (list N);
  ds_prev : option (list N);
  ds_pend : list N;
  ds_ended : bool;
  ds_bad : bool
}.
Definition ds_new (m : N) : dst := mk_dst m [] [] None [] false false.
Definition ds_reset (s : dst) : dst := ds_new (ds_m s).

(** One code from the bit buffer. *)
Definition do_code (s : dst) (wd : nat) : dst :=
  let code := bits_val (firstn wd (ds_bits s)) in
  let bits := skipn wd (ds_bits s) in
  match lookup (ds_m s) (ds_prev s) (ds_dict s) code with
  | AClear => mk_dst (ds_m s) bits [] None [] false false
  | AEnd => mk_dst (ds_m s) bits (ds_dict s) (ds_prev s) [] true false
  | AWord w =>
    mk_dst (ds_m s) bits (add_entry (ds_m s) (ds_prev s) (ds_dict s) w) (Some w) w false false
  | ABad => mk_dst (ds_m s) bits (ds_dict s) (ds_prev s) [] false true
  end.
Definition set_pend (s : dst) (p : list N) : dst :=
  mk_dst (ds_m s) (ds_bits s) (ds_dict s) (ds_prev s) p (ds_ended s) (ds_bad s).
Definition add_bits (s : dst) (b : N) : dst :=
  mk_dst (ds_m s) (ds_bits s ++ nbits 8 b) (ds_dict s) (ds_prev s) (ds_pend s) (ds_ended s) (ds_bad s).

(** [n]: bytes taken so far; [w]: bytes written so far. *)
Fixpoint dec_loop (fuel : nat) (s : dst) (inp : list N) (cap : nat) (n : nat) (w : list N)
  : dst * (nat * list N) :=
  match fuel with
  | O => (s, (n, w))
  | S fuel' =>
    match ds_pend s with
    | _ :: _ =>
      match cap with
      | O => (s, (n, w))
      | _ =>
        dec_loop fuel' (set_pend s (skipn cap (ds_pend s))) inp
          (cap - length (ds_pend s)) n (w ++ firstn cap (ds_pend s))
      end
    | [] =>
      if ds_ended s || ds_bad s then (s, (n, w))
      else
        let wd := width (ds_m s) (ds_prev s) (ds_dict s) in
        if (wd <=? length (ds_bits s))%nat then dec_loop fuel' (do_code s wd) inp cap n w
        else
          match inp with
          | [] => (s, (n, w))
          | b :: inp' => dec_loop fuel' (add_bits s b) inp' cap (S n) w
          end
    end
  end.
Definition dec_fuel (s : dst) (inp : list N) : nat :=
  (17 * length inp + 2 * length (ds_bits s) + 2)%nat.
Definition ref_decode (s : dst) (inp : list N) (cap : nat) : dst * (nat * list N * lz_status) :=
  let '(s', (n, w)) := dec_loop (dec_fuel s inp) s inp cap 0 [] in
  (s', (n, w,
        if ds_bad s' then LzInvalid
        else if ds_ended s' && is_nil (ds_pend s') then LzDone
        else if (n =? 0)%nat && is_nil w then LzNoProgress
        else LzOk)).
Definition ref_ended (s : dst) : bool := ds_ended s && is_nil (ds_pend s).

(** Greedy encoder. [dd], [prev]: dictionary and last word of a decoder that has read all codes
    emitted so far; the encoder also knows the entry that decoder is about to add. *)
Fixpoint find_word (w : list N) (dict : list (list N)) (i : N) : option N :=
  match dict with
  | [] => None
  | x :: d => if list_eqb x w then Some i else find_word w d (i + 1)
  end.
Definition ahead (prev : option (list N)) (cur : list N) : list (list N) :=
  match prev, cur with Some p, h :: _ => [p ++ [h]] | _, _ => [] end.
Definition code_of (m : N) (prev : option (list N)) (dd : list (list N)) (cur w : list N) : option N :=
  match w with
  | [b] => Some b
  | _ => find_word w (dd ++ ahead prev cur) (2 ^ m + 2)
  end.
Definition emit (m : N) (prev : option (list N)) (dd : list (list N)) (code : N) : list bool :=
  nbits (width m prev dd) code.
Definition code_or0 (o : option N) : N := match o with Some c => c | None => 0 end.

Fixpoint enc_loop (m : N) (dd : list (list N)) (prev : option (list N)) (cur : list N)
  (rest : list N) : list bool :=
  match rest with
  | [] =>
    emit m prev dd (code_or0 (code_of m prev dd cur cur))
    ++ emit m (Some cur) (add_entry m prev dd cur) (eoi_code m)
  | b :: rest' =>
    match code_of m prev dd cur (cur ++ [b]) with
    | Some _ => enc_loop m dd prev (cur ++ [b]) rest'
    | None =>
      let out := emit m prev dd (code_or0 (code_of m prev dd cur cur)) in
      let dd' := add_entry m prev dd cur in
      if 4095 <=? 2 ^ m + 2 + N.of_nat (length dd')
      then out ++ emit m (Some cur) dd' (clear_code m) ++ enc_loop m [] None [b] rest'
      else out ++ enc_loop m dd' (Some cur) [b] rest'
    end
  end.
Definition ref_encode (m : N) (data : list N) : list N :=
  pack (emit m None [] (clear_code m) ++
        match data with
        | [] => emit m None [] (eoi_code m)
        | b :: rest => enc_loop m [] None [b] rest
        end).

Definition lzw_ref : lzw_codec := mk_lzw dst ds_new ds_reset ref_ended ref_decode ref_encode.
