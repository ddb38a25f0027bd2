(** Model of the messages of the library (src/mr_message.c:11-136).  Texts are lists of bytes. *)
From Coq Require Import Ascii String.
From Verif Require Import Base.
Local Open Scope Z_scope.

(** A literal as a list of bytes, for src/mr_message.c:52, 96-99. *)
Definition lit (s : string) : list Z := map (fun c => Z.of_nat (nat_of_ascii c)) (list_ascii_of_string s).

(** vsnprintf with the arguments of a call: the text for a format, or a failure, src/mr_message.c:16, 31.
    The first call, which measures, and the second one have the same arguments and are taken to agree. *)
Definition printer := list Z -> option (list Z).

(** mr_vasprintf, src/mr_message.c:21-39; mr_vscprintf, 11-19.  [al]: MR_CALLOC succeeds.  The result is what is
    stored in [*strp]. *)
Definition vasprintf (al : bool) (p : printer) (fmt : list Z) : option (list Z) :=
  match p fmt with
  | None => None
  | Some [] => None
  | Some s => if al then Some s else None
  end.

(** The static variables of mr_message_format, src/mr_message.c:50-51. *)
Record msgs := Msgs { messages : list (option (list Z)); inited : bool }.
(** The state at the start; [last] is MR_MESSAGE_LAST, src/mr_message.c:50-51. *)
Definition msgs0 (last : Z) : msgs := Msgs (replicate (Z.to_nat (last + 1)) None) false.

(** The loop of src/mr_message.c:61-62; an enumerator is its value and its meta data.  [None]: write outside
    of the array. *)
Fixpoint fill (tbl : list (option (list Z))) (enums : list (Z * option (list Z))) : option (list (option (list Z))) :=
  match enums with
  | [] => Some tbl
  | (v, meta) :: enums => tbl ← (if v <? 0 then None else wr tbl (Z.to_nat v) meta); fill tbl enums
  end.

(** mr_message_format, src/mr_message.c:47-74.  [td]: the enumerators of the type mr_message_id_t if it is found
    (57); [id] is an unsigned number.  Outer [None]: access outside of the array. *)
Definition message_format (al : bool) (p : printer) (td : option (list (Z * option (list Z)))) (s : msgs) (id : Z)
  : option (option (list Z) * msgs) :=
  s ← (if inited s then Some s
       else match td with
            | None => Some s
            | Some enums => tbl ← fill (messages s) enums; Some (Msgs tbl true)
            end);
  fmt ← (if id <=? Z.of_nat (length (messages s)) then rd (messages s) (Z.to_nat id) else Some None);
  let format := match fmt with Some f => f | None => lit "Unknown MR_MESSAGE_ID." end in
  Some (vasprintf al p format, s).

(** log_level_str, src/mr_message.c:97-99 with the values of src/mr_protos.h:16-25. *)
Definition log_level_str : list (list Z) :=
  [lit "ALL"; lit "TRACE"; lit "DEBUG"; lit "INFO"; lit "WARN"; lit "ERROR"; lit "FATAL"; lit "OFF"].

(** The name of a level, src/mr_message.c:96-104.  [level] is an unsigned number, below 2^31 the cast to [int]
    keeps it.  [None]: read outside of the array. *)
Definition level_name (level : Z) : option (list Z) :=
  if (level <? 2 ^ 31) && (level <=? Z.of_nat (length log_level_str)) then rd log_level_str (Z.to_nat level)
  else Some (lit "Unknown").

(** What a call does: src/mr_message.c:93; nothing; 131 and 128.  The place in the source (file, function, line) is
    printed as it was given. *)
Inductive outcome := Handled | Silent | Line (level text : list Z) | OutOfMemory (level : list Z) (id : Z).

(** mr_message, src/mr_message.c:84-136.  [handler]: a handler is set (its effect is not modelled); [conf] is the
    level of the configuration.  The backtrace (106-124) is left out. *)
Definition message (handler : bool) (conf : Z) (al : bool) (p : printer) (td : option (list (Z * option (list Z))))
    (s : msgs) (level id : Z) : option (outcome * msgs) :=
  if handler then Some (Handled, s)
  else if conf <=? level then
    name ← level_name level;
    '(m, s) ← message_format al p td s id;
    Some (match m with None => OutOfMemory name id | Some text => Line name text end, s)
  else Some (Silent, s).

(** A call with what is around it, src/mr_message.c:84-136: handler, level of the configuration, outcome of the
    allocation, vsnprintf with its arguments, type descriptor, level and number of the message. *)
Record call := Call { handler : bool; conf : Z; al : bool; pr : printer; td : option (list (Z * option (list Z))); level : Z; id : Z }.
(** Calls one after the other, src/mr_message.c:84-136. *)
Fixpoint run (s : msgs) (calls : list call) : option (list outcome * msgs) :=
  match calls with
  | [] => Some ([], s)
  | c :: calls =>
    '(o, s) ← message (handler c) (conf c) (al c) (pr c) (td c) s (level c) (id c);
    '(os, s) ← run s calls;
    Some (o :: os, s)
  end.
