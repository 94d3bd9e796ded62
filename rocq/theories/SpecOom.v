(** Vocabulary for runs in which memory may run out: which reservations a call made. *)
From Verif Require Import Base Common Lzw Encoder Stream Converter Reader OomModel.
Open Scope N_scope.

(** All reservations between [mem] and [mem'] succeeded; the last of them failed. *)
Definition spared (mem mem' : list bool) : Prop := exists k, mem = repeat true k ++ mem'.
Definition ran_out (mem mem' : list bool) : Prop := exists k, mem = repeat true k ++ false :: mem'.

Definition oom {A} : dres A := Err (DIo OutOfMemory).
(** The output of an operation that reports lack of memory. *)
Definition oom_out (y : dout) : Prop :=
  match y with OutBool x => x = oom | OutInto _ x => x = oom | OutFill _ x => x = oom end.

(** A caller of [update] who may go on after every error, with memory that may run out at any time; as [driven]. *)
Inductive driven_o (L : lzw_codec) (o : options) : sd L -> list N -> list decoded -> Prop :=
| do_new rest : driven_o L o (sd_new L o) rest []
| do_ok mem mem' s buf tl ob s' ob' n d evs :
    driven_o L o s (buf ++ tl) evs -> update_o L mem s buf ob = (mem', (s', ob', Ok (n, d))) ->
    driven_o L o s' (skipn n buf ++ tl) (evs ++ [d])
| do_err mem mem' s buf tl ob s' ob' e rest evs :
    driven_o L o s (buf ++ tl) evs -> update_o L mem s buf ob = (mem', (s', ob', Err e)) ->
    driven_o L o s' rest evs.

(** A caller of [update] who never gets any memory: the first reservation of every call fails. *)
Inductive starved (L : lzw_codec) (o : options) : sd L -> list decoded -> Prop :=
| sv_new : starved L o (sd_new L o) []
| sv_ok mem mem' s buf ob s' ob' n d evs :
    starved L o s evs -> update_o L (false :: mem) s buf ob = (mem', (s', ob', Ok (n, d))) -> starved L o s' (evs ++ [d])
| sv_err mem mem' s buf ob s' ob' e evs :
    starved L o s evs -> update_o L (false :: mem) s buf ob = (mem', (s', ob', Err e)) -> starved L o s' evs.
