(** C100: size fields of loaded pointers. *)
From Verif Require Import Base Bitfield BitfieldProof AssignInt P_AssignInt SizeField.
Local Open Scope Z_scope.

(** [s] is the innermost structure around node [i] or the node itself. *)
Inductive around (nodes : list snode) : nat -> snode -> Prop :=
  | ar_here i s : i <> O -> nodes !! i = Some s -> n_type s = 22 -> around nodes i s
  | ar_up i n s : i <> O -> nodes !! i = Some n -> n_type n <> 22 -> around nodes (n_parent n) s -> around nodes i s.
(** No structure around node [i]. *)
Inductive bare (nodes : list snode) : nat -> Prop :=
  | ba_root : bare nodes O
  | ba_up i n : nodes !! i = Some n -> n_type n <> 22 -> bare nodes (n_parent n) -> bare nodes i.
(** The field of a structure that the description of a pointer names. *)
Definition names (any : list Z -> bool) (r : sres) (td : stype) (f : sfield) : Prop :=
  match r with
  | NoRes => False
  | Offset o => by_offset td o = Some f
  | Name s => any s = true /\ by_name td s = Some f
  end.
(** The field [f] of the structure [s] as an operand. *)
Definition field_of (s : snode) (f : sfield) : operand :=
  Op (n_data s + s_offset f) (s_type f) (s_aux f) (s_enum f) (s_shift f) (s_width f).

Lemma around_loop nodes i s : around nodes i s ->
  exists k f0, k <> O /\ nodes !! k = Some s /\ forall fuel, (f0 <= fuel)%nat -> parent_struct fuel nodes k = Some k /\ parent_struct fuel nodes i = Some k.
Proof.
  induction 1 as [i s N L T|i n s N L T A (k & f0 & Nk & Lk & H)].
  - exists i, 1%nat. split; [done|]. split; [done|]. intros [|fuel] F; [lia|]. cbn [parent_struct].
    replace (Nat.eqb i 0) with false by (symmetry; by apply Nat.eqb_neq). rewrite L. cbn [mbind option_bind].
    by replace (n_type s =? 22) with true by lia.
  - exists k, (S f0). split; [done|]. split; [done|]. intros [|fuel] F; [lia|]. split; [by apply H; lia|]. cbn [parent_struct].
    replace (Nat.eqb i 0) with false by (symmetry; by apply Nat.eqb_neq). rewrite L. cbn [mbind option_bind].
    replace (n_type n =? 22) with false by lia. apply H. lia.
Qed.
Lemma bare_loop nodes i : bare nodes i -> exists f0, forall fuel, (f0 <= fuel)%nat -> parent_struct fuel nodes i = Some O.
Proof.
  induction 1 as [|i n L T B (f0 & H)].
  - exists 1%nat. intros [|fuel] F; [lia|]. done.
  - exists (S f0). intros [|fuel] F; [lia|]. cbn [parent_struct]. destruct (Nat.eqb_spec i 0); [done|].
    rewrite L. cbn [mbind option_bind]. replace (n_type n =? 22) with false by lia. apply H. lia.
Qed.

(** C100: after loading a pointer with a size field, the field of the innermost
    structure around it holds the size (modulo the range of its type), whatever integer
    type it has, and no other bit of the memory has changed. *)
Theorem C100_set_size : forall any mem nodes idx n s td f pd wd rd size,
  bytes mem -> nodes !! idx = Some n -> around nodes (n_parent n) s -> n_td s = Some td ->
  names any (n_res n) td f ->
  o_ptr (field_of s f) <> O -> place mem (field_of s f) pd wd rd -> pd + wd <= 8 * Z.of_nat (length mem) ->
  n_size_at n <> O -> 8 * Z.of_nat (n_size_at n) + 32 <= 8 * Z.of_nat (length mem) ->
  holds mem (8 * Z.of_nat (n_size_at n)) 32 RUnsigned size ->
  exists fuel0, forall fuel, (fuel0 <= fuel)%nat -> exists mem' z,
    set_size any fuel mem nodes idx = Some mem' /\ length mem' = length mem /\
    holds mem' pd wd rd z /\ (in_range rd wd size -> z = size) /\ (rd <> RBool -> z mod 2 ^ wd = size mod 2 ^ wd) /\
    (forall k, 0 <= k -> k < pd \/ pd + wd <= k -> membit mem' k = membit mem k).
Proof.
  intros any mem nodes idx n s td f pd wd rd size B L A T Nm Nz P Ld Ns Ls H.
  destruct (around_loop _ _ _ A) as (k & f0 & Nk & Lk & F). exists f0. intros fuel Hf. destruct (F fuel Hf) as [_ E].
  destruct (C97_assign mem (field_of s f) (Op (n_size_at n) 11 0 None 0 0) (8 * Z.of_nat (n_size_at n)) 32 RUnsigned size pd wd rd)
    as (mem' & z & Ea & _ & Lm & Hz & _ & Zm & Zr & O); [done| |done|done|done|done|].
  { apply (PBasic _ _ (n_size_at n) 11); [by apply (TDirect _ (Op (n_size_at n) 11 0 None 0 0))|cbn; eauto 20]. }
  exists mem', z. split; [|done].
  assert (Sp : size_ptrdes any fuel nodes idx = Some (Some (field_of s f))).
  { unfold size_ptrdes. rewrite L. cbn [mbind option_bind]. unfold names in Nm. destruct (n_res n) as [|o|nm]; [done| |].
    - cbn [negb]. rewrite E. cbn [mbind option_bind]. replace (Nat.eqb k 0) with false by (symmetry; by apply Nat.eqb_neq).
      rewrite Lk. cbn [mbind option_bind]. by rewrite T, Nm.
    - destruct Nm as [-> Nm]. cbn [negb]. rewrite E. cbn [mbind option_bind]. replace (Nat.eqb k 0) with false by (symmetry; by apply Nat.eqb_neq).
      rewrite Lk. cbn [mbind option_bind]. by rewrite T, Nm. }
  unfold set_size. rewrite Sp. cbn [mbind option_bind]. replace (Nat.eqb (o_ptr (field_of s f)) 0) with false by (symmetry; by apply Nat.eqb_neq).
  rewrite L. exact Ea.
Qed.
Print Assumptions C100_set_size.

(** C100: without a size field - none is described, the name is unknown, there is no
    structure around, or it has no such field - nothing changes. *)
Theorem C100_no_field : forall any mem nodes idx n,
  nodes !! idx = Some n ->
  (n_res n = NoRes \/ (exists nm, n_res n = Name nm /\ any nm = false) \/ bare nodes (n_parent n) \/
   exists s, around nodes (n_parent n) s /\ forall td f, n_td s = Some td -> ~ names any (n_res n) td f) ->
  exists fuel0, forall fuel, (fuel0 <= fuel)%nat -> set_size any fuel mem nodes idx = Some mem.
Proof.
  intros any mem nodes idx n L C.
  assert (S : exists fuel0, forall fuel, (fuel0 <= fuel)%nat -> size_ptrdes any fuel nodes idx = Some None).
  { unfold size_ptrdes. rewrite L. cbn [mbind option_bind]. destruct C as [E|[(nm & E & A)|[B|(s & A & No)]]].
    - exists O. intros fuel _. by rewrite E.
    - exists O. intros fuel _. by rewrite E, A.
    - destruct (bare_loop _ _ B) as (f0 & F). exists f0. intros fuel Hf. rewrite (F fuel Hf). by destruct (negb _).
    - destruct (around_loop _ _ _ A) as (k & f0 & Nk & Lk & F). exists f0. intros fuel Hf. destruct (F fuel Hf) as [_ ->].
      cbn [mbind option_bind]. replace (Nat.eqb k 0) with false by (symmetry; by apply Nat.eqb_neq).
      rewrite Lk. cbn [mbind option_bind]. unfold names in No. destruct (n_res n) as [|o|nm]; [done| |].
      + cbn [negb]. destruct (n_td s) as [td|]; [|done]. destruct (by_offset td o) as [f|] eqn:E; [|done]. by destruct (No td f eq_refl).
      + destruct (any nm) eqn:An; [|done]. cbn [negb]. destruct (n_td s) as [td|]; [|done].
        destruct (by_name td nm) as [f|] eqn:E; [|done]. by destruct (No td f eq_refl). }
  destruct S as (f0 & F). exists f0. intros fuel Hf. unfold set_size. by rewrite (F fuel Hf).
Qed.
Print Assumptions C100_no_field.

(** A pointer (node 3) in an array (node 2) in a structure at 8 (node 1) with a 16 bit
    field [n] at offset 2; the size of the pointer's content, 300, is at 4. *)
Definition td100 : stype :=
  SType (fun _ => None) (fun s => if decide (s = [110]) then Some (SField 2 9 9 None 0 0) else None).
Definition nodes100 : list snode :=
  [SNode 0 0 0 NoRes None 0; SNode 0 22 8 NoRes (Some td100) 0; SNode 1 27 16 NoRes None 0; SNode 2 28 16 (Name [110]) None 4].
Definition mem100 : list Z := [0; 0; 0; 0; 44; 1; 0; 0; 170; 170; 170; 170; 170; 170].
Definition any100 (s : list Z) : bool := bool_decide (s = [110]).
Example C100_case : exists n s f, nodes100 !! 3%nat = Some n /\ around nodes100 (n_parent n) s /\ n_td s = Some td100 /\
  names any100 (n_res n) td100 f /\ o_ptr (field_of s f) <> O /\ place mem100 (field_of s f) 80 16 RUnsigned /\
  holds mem100 (8 * Z.of_nat (n_size_at n)) 32 RUnsigned 300 /\
  set_size any100 5 mem100 nodes100 3 = Some [0; 0; 0; 0; 44; 1; 0; 0; 170; 170; 44; 1; 170; 170] /\
  set_size (fun _ => false) 5 mem100 nodes100 3 = Some mem100.
Proof.
  eexists _, _, (SField 2 9 9 None 0 0). split; [reflexivity|]. split.
  { eapply ar_up; [done|reflexivity|done|]. eapply ar_here; [done|reflexivity|done]. }
  split; [reflexivity|]. split; [split; reflexivity|]. split; [done|]. split.
  { apply (PBasic _ _ 10 9); [|cbn; eauto 20]. by apply (TDirect _ (Op 10 9 9 None 0 0)). }
  split; [split; [cbn; lia|apply bits_case; vm_compute; reflexivity]|]. split; vm_compute; reflexivity.
Qed.
