(** Model of the XDR stream on a resizable array with its allocation and positions
    (src/xdr.c:26-235).  [x_private] is not NULL. *)
From Verif Require Import Base RArray Xdr.
Local Open Scope Z_scope.

(** The stream: the array [x_private] and the position [x_handy], src/xdr.c:35, 40. *)
Record stream := XS { ra : rarray; handy : Z }.

(** mr_xdrra_create, src/xdr.c:210-235. *)
Definition xdrra_create (r : rarray) : stream := XS r 0.

(** xdrra_putlong and xdrra_putbytes up to the conversion of the value, src/xdr.c:58-66, 106-112.
    [None] is undefined behaviour. *)
Definition put_raw (wrapv : bool) (s : stream) (l : list Z) (o : oracle) : option (bool * stream) :=
  '(ok, r) ← append_bytes wrapv (ra s) l o;
  Some (ok, XS r (if (ok : bool) then u32 (handy s + Z.of_nat (length l)) else handy s)).
(** xdrra_putlong, src/xdr.c:54-67, and xdrra_putint32, 197-201. *)
Definition xdrra_putlong (wrapv : bool) (s : stream) (v : Z) (o : oracle) : option (bool * stream) :=
  put_raw wrapv s (be32 (v mod 2 ^ 32)) o.
(** xdrra_putbytes, src/xdr.c:99-113. *)
Definition xdrra_putbytes (wrapv : bool) (s : stream) (l : list Z) (o : oracle) : option (bool * stream) :=
  put_raw wrapv s l o.

(** [n] bytes at the position, src/xdr.c:43-45, 87-89; outside of the block is undefined. *)
Definition get_raw (s : stream) (n : Z) : option (list Z * stream) :=
  l ← peek (Z.to_nat n) (default [] (block (ra s))) (handy s);
  Some (l, XS (ra s) (u32 (handy s + n))).
(** xdrra_getlong, src/xdr.c:31-47, and xdrra_getint32, 183-187: [ssize_t] is compared with [size_t] in
    line 40.  The inner [None] is the result false. *)
Definition xdrra_getlong (s : stream) : option (option Z * stream) :=
  if (rsize (ra s) - handy s) mod 2 ^ 64 <? 4 then Some (None, s)
  else '(l, s) ← get_raw s 4; Some (Some (of_be32 l), s).
(** xdrra_getbytes, src/xdr.c:76-91: [ssize_t] is compared with [u_int] in line 84. *)
Definition xdrra_getbytes (s : stream) (n : Z) : option (option (list Z) * stream) :=
  if rsize (ra s) - handy s <? n then Some (None, s)
  else '(l, s) ← get_raw s n; Some (Some l, s).

(** xdrra_getpostn, src/xdr.c:120-124. *)
Definition xdrra_getpostn (s : stream) : Z := handy s.
(** xdrra_setpostn, src/xdr.c:132-137. *)
Definition xdrra_setpostn (s : stream) (pos : Z) : bool * stream := (true, XS (ra s) pos).
(** xdrra_inline, src/xdr.c:145-158: the pointer as a position in the block, and the stream. *)
Definition xdrra_inline (s : stream) (n : Z) : option Z * stream :=
  (if rsize (ra s) - handy s <? n then None else Some (handy s), s).
(** xdrra_destroy, src/xdr.c:164-174. *)
Definition xdrra_destroy (s : stream) : stream := XS (RA None 0 0) (handy s).
