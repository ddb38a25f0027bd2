(** C90: MR_ADD_TYPE finds the members of a structure (src/metaresc.h:829-916, src/metaresc.c:164-421). *)
From Coq Require Import String.
From Verif Require Import Base DumpStruct DumpStructProof.
From Verif Require Dwarf.
Local Open Scope Z_scope.
Notation str := Dwarf.lit (only parsing).

(** Whatever the members are, nested at any depth, and whatever the limit on their number: the descriptors are those of the members
    that are no bit-fields in their order, with name, type and position (of a structure or union: where it starts), then
    those of the bit-fields with byte, shift and width; beyond the limit they are left out. *)
Theorem C90_members ldb depth n ds :
  1 <= n < 2 ^ 24 -> Forall (inside ldb n) ds -> Forall starts ds ->
  add_type ldb depth n ds = Some (take depth (omap regular ds ++ omap bitfield ds)).
Proof. intros. by apply add_type_spec. Qed.
Print Assumptions C90_members.

(** Below the limit each member is found. *)
Theorem C90_each_member ldb depth n ds d :
  1 <= n < 2 ^ 24 -> Forall (inside ldb n) ds -> Forall starts ds -> (length ds <= depth)%nat -> In d ds ->
  exists fs f, add_type ldb depth n ds = Some fs /\ In f fs /\
    match d with
    | Scalar ty nm t off => f = Fd nm ty t (tc t) off 0 0 false
    | Other ty nm off => fname f = nm /\ ftype f = ty /\ foffset f = off
    | Rec ty nm off _ => fname f = nm /\ ftype f = ty /\ foffset f = off /\ fclass f = C_RECORD
    | Bit ty nm w bit => fname f = nm /\ ftype f = ty /\ fmr_type f = BITFIELD /\ fwidth f = w /\
        8 * foffset f + fshift f = bit /\ 0 <= fshift f < 8
    end.
Proof.
  intros Hn W St D I. rewrite (C90_members ldb depth n ds Hn W St).
  assert (length (omap regular ds ++ omap bitfield ds) = length ds) as Ln.
  { clear. rewrite app_length. induction ds as [|d ds IH]; [done|]. destruct d; cbn [omap list_omap regular bitfield length] in *; lia. }
  rewrite take_ge by lia.
  assert (forall f, regular d = Some f \/ bitfield d = Some f -> In f (omap regular ds ++ omap bitfield ds)) as Inn.
  { intros f [E|E]; apply in_or_app; [left|right]; apply elem_of_list_In, elem_of_list_omap; exists d; (split; [by apply elem_of_list_In|done]). }
  destruct d as [ty nm t off|ty nm off|ty nm w bit|ty nm off es].
  - do 2 eexists. split; [done|]. split; [apply Inn; left; done|]. done.
  - do 2 eexists. split; [done|]. split; [apply Inn; left; done|]. done.
  - do 2 eexists. split; [done|]. split; [apply Inn; right; done|]. cbn. do 4 (split; [done|]).
    pose proof (Z.div_mod bit 8 ltac:(lia)). pose proof (Z.mod_pos_bound bit 8 ltac:(lia)). lia.
  - do 2 eexists. split; [done|]. split; [apply Inn; left; done|]. done.
Qed.
Print Assumptions C90_each_member.

(** A case: a structure of 70000 bytes, with a nested structure and bit-fields behind the first 65536 bytes. *)
Definition case : list decl :=
  [Scalar (str "int") (str "a") INT32 0; Scalar (str "float") (str "f") FLOAT 252; Other (str "char [65536]") (str "buf") 256;
   Rec (str "point_t") (str "p") 66000 [Rec (str "inner_t") (str "i") 66000 [Scalar (str "double") (str "x") DOUBLE 66000]; Bit (str "int") (str "b") 3 528064];
   Bit (str "unsigned") (str "c") 5 528133; Scalar (str "char *") (str "s") STRING 69992].
Example C90_case : forall depth, (6 <= depth)%nat -> add_type id depth 70000 case = Some
  [Fd (str "a") (str "int") INT32 C_INTEGER 0 0 0 false; Fd (str "f") (str "float") FLOAT C_REAL 252 0 0 false;
   Fd (str "buf") (str "char [65536]") NONE C_POINTER 256 0 0 false; Fd (str "p") (str "point_t") NONE C_RECORD 66000 0 0 false;
   Fd (str "s") (str "char *") STRING C_POINTER 69992 0 0 false; Fd (str "c") (str "unsigned") BITFIELD C_NONE 66016 5 5 true].
Proof.
  intros depth D. rewrite C90_members.
  - rewrite take_ge by (cbn; lia). vm_compute. reflexivity.
  - lia.
  - repeat constructor; cbn; try done; try lia.
  - repeat constructor. by exists false.
Qed.
(** The same program run on a small structure. *)
Example C90_run : add_type id 4 300
  [Scalar (str "int") (str "a") INT32 256; Scalar (str "bool") (str "f") BOOL 299; Bit (str "int") (str "b") 3 2381] =
  Some [Fd (str "a") (str "int") INT32 C_INTEGER 256 0 0 false; Fd (str "f") (str "bool") BOOL C_BOOLEAN 299 0 0 false;
    Fd (str "b") (str "int") BITFIELD C_NONE 297 3 5 true].
Proof. vm_compute. reflexivity. Qed.

(** A nested structure that starts with a bit-field is given the position of a later member. *)
Theorem C90_leading_bitfield_refuted : exists ds f, Forall (inside id 16) ds /\
  ds = [Scalar (str "int") (str "a") INT32 0; Rec (str "s_t") (str "s") 4 [Bit (str "int") (str "b") 3 32; Scalar (str "int") (str "c") INT32 8]] /\
  add_type id 128 16 ds = Some [Fd (str "a") (str "int") INT32 C_INTEGER 0 0 0 false; f] /\ fname f = str "s" /\ foffset f = 8.
Proof.
  eexists _, (Fd (str "s") (str "s_t") NONE C_RECORD 8 0 0 false). split; [|split; [reflexivity|]].
  - repeat constructor; cbn; try done; lia.
  - split; [vm_compute; reflexivity|]. done.
Qed.
Print Assumptions C90_leading_bitfield_refuted.

(** A nested structure of bit-fields only is not found. *)
Theorem C90_only_bitfields_refuted : exists ds, Forall (inside id 8) ds /\
  ds = [Rec (str "s_t") (str "s") 0 [Bit (str "int") (str "b") 3 0]; Scalar (str "int") (str "a") INT32 4] /\
  add_type id 128 8 ds = Some [Fd (str "a") (str "int") INT32 C_INTEGER 4 0 0 false].
Proof.
  eexists. split; [|split; [reflexivity|]].
  - repeat constructor; cbn; try done; lia.
  - vm_compute. reflexivity.
Qed.
Print Assumptions C90_only_bitfields_refuted.

(** Where the compiler takes the lowest bit of a byte for a [bool], members of this type are given position 0 or 1. *)
Theorem C90_bool_refuted : exists ds f,
  ds = [Scalar (str "bool") (str "a") BOOL 0; Scalar (str "bool") (str "b") BOOL 1; Scalar (str "bool") (str "c") BOOL 2] /\
  add_type (fun b => b mod 2) 128 3 ds = Some [Fd (str "a") (str "bool") BOOL C_BOOLEAN 0 0 0 false; Fd (str "b") (str "bool") BOOL C_BOOLEAN 1 0 0 false; f] /\
  fname f = str "c" /\ foffset f = 0.
Proof.
  eexists _, (Fd (str "c") (str "bool") BOOL C_BOOLEAN 0 0 0 false). split; [reflexivity|]. split; [vm_compute; reflexivity|]. done.
Qed.
Print Assumptions C90_bool_refuted.

(** From 2^24 bytes on the constructor shifts by 32 bits, which is undefined, even for a structure without members. *)
Theorem C90_large_refuted ldb depth n ds : 2 ^ 24 <= n < 2 ^ 63 -> add_type ldb depth n ds = None.
Proof.
  intros Hn. unfold add_type. change (map (fun i => i mod 2 ^ 8) (seqZ 0 n)) with (sample n (fun i => i mod 2 ^ 8)).
  enough (forall k byte h s, (k = 0%nat /\ byte = 4) \/ 0 <= byte <= 3 /\ byte + Z.of_nat k = 4 ->
    passes ldb k depth ds (sample n h) byte s = None) as H.
  { rewrite (H 4%nat 0); [done|]. right. lia. }
  induction k as [|k IH]; intros byte h s B; [done|]. cbn [passes]. destruct (dump_struct _ _ _) as [ls|]; [|done]. cbn [mbind option_bind].
  destruct (calls _ _ _) as [s'|]; [|done]. cbn [mbind option_bind].
  destruct (Z.leb_spec 31 (8 * (1 + byte))) as [|L]; [done|].
  assert (2 ^ (8 * (1 + byte)) <= 2 ^ 24) as P by (apply Z.pow_le_mono_r; lia).
  pose proof (Z.pow_pos_nonneg 2 (8 * (1 + byte)) ltac:(lia) ltac:(lia)).
  destruct (Z.ltb_spec (Z.of_nat (length (sample n h))) (2 ^ (8 * (1 + byte)))) as [X|X]; [rewrite sample_length in X; lia|].
  rewrite (fill_sample id _ n) by (try apply sample_length; lia). cbn [mbind option_bind]. apply IH. right. lia.
Qed.
Print Assumptions C90_large_refuted.
