(** C70: the member of a union chosen by the value of its discriminator
    (src/mr_save.c:14-196). *)
From Verif Require Import Base NumStr Bitfield Enum UnionDisc UnionDiscProof UnionSel UnionSelSpec UnionSelProof.
Local Open Scope Z_scope.

(** C70: for every table of types whose flags are those computed by
    mr_type_is_union_discriminator (C42), cyclic types included, every memory, every union
    with its overrides, and every field used as a discriminator: the loop ends; the value
    it has found is that of the first scalar of the field's type, through arrays,
    pointers and first members of structures; the member chosen is the one this value
    means - an override, else the member with that number or name, else the first
    member - and NULL only for a union without members.  The member exists. *)
Theorem C70_union_member_by_discriminator : forall tds M u fd a resolvable n fuel ts fl,
  (forall x f y, (x < n)%nat -> t_first (tds x) = Some f -> d_td f = Some y -> (y < n)%nat) ->
  (forall t, t ∈ ts -> (t < n)%nat) -> (n < fuel)%nat ->
  union_discriminators (fun t => bool_decide (is_Some (t_first (tds t)))) (fun t => t_first (tds t) ≫= d_td) resolvable fuel
    (Flags (fun _ => false) (fun _ => false)) ts = Some fl ->
  (forall t, t_disc (tds t) = is_disc fl t) ->
  (forall t f, t_first (tds t) = Some f -> fd_wf f) -> fd_wf fd ->
  exists m r v, (forall k, (m <= k)%nat -> by_type tds M u k (d_type fd) fd a = Some r) /\
    found tds M (field_type fd) a v /\ (forall v', found tds M (field_type fd) a v' -> v' = v) /\
    match r with Some f => means u v f | None => u_names u = [] end /\
    ((forall k x f, u_over u !! k = Some (x, f) -> (f < length (u_names u))%nat) -> forall f, r = Some f -> (f < length (u_names u))%nat).
Proof.
  intros tds M u fd a resolvable n fuel ts fl Hn Ht Hf E Hd Hw W.
  assert (Hn' : forall x y, (x < n)%nat -> bool_decide (is_Some (t_first (tds x))) = true -> t_first (tds x) ≫= d_td = Some y -> (y < n)%nat).
  { intros x y Hx _ H. apply bind_Some in H as (f & H1 & H2). by eapply Hn. }
  destruct (union_discriminators_ok _ _ resolvable n Hn' fuel (Flags (fun _ => false) (fun _ => false)) ts)
    as (fl' & E' & Hi & _); [intros x; cbn; done|done|done|]. assert (fl' = fl) as -> by congruence.
  assert (L : forall t, t_disc (tds t) = true -> exists k, leads_in (fun t => bool_decide (is_Some (t_first (tds t)))) (fun t => t_first (tds t) ≫= d_td) resolvable k t).
  { intros t H. rewrite Hd in H. apply (Hi t); [by apply (Hi t)|done]. }
  assert (LW : forall k t, leads_in (fun t => bool_decide (is_Some (t_first (tds t)))) (fun t => t_first (tds t) ≫= d_td) resolvable k t ->
    leads_in (fun t => bool_decide (is_Some (t_first (tds t)))) (fun t => t_first (tds t) ≫= d_td) (fun _ => true) k t).
  { induction 1; [by apply leads_base|by eapply leads_step]. }
  assert (K : exists k, short tds k fd).
  { destruct (d_td fd) as [t|] eqn:Et; [|exists 0%nat; intros t; congruence].
    destruct (t_disc (tds t)) eqn:Ed.
    - destruct (L t Ed) as [k Hk]. exists k. intros t' Et' _. exists k. split; [done|]. apply LW. congruence.
    - exists 0%nat. intros t' Et' Ed'. congruence. }
  destruct K as [k Hk]. destruct (sel_field tds M u Hw k fd a W Hk) as (m & r & v & Hm & Hv & Ho).
  exists m, r, v. split; [done|]. split; [done|]. split; [intros v' H; by eapply found_det|]. split; [done|].
  intros Ho' f ->. eapply by_type_lt; [exact Ho'|]. by apply Hm.
Qed.
Print Assumptions C70_union_member_by_discriminator.

(** The member meant by a value is one only, as far as numbers fit an int. *)
Theorem C70_meaning_unique : forall u v f g,
  (forall x, v = DvNum x -> - 2 ^ 31 <= x < 2 ^ 31) -> means u v f -> means u v g -> f = g.
Proof. exact means_det. Qed.
Print Assumptions C70_meaning_unique.

(** struct { struct { int64_t x; } * p [2]; }, i.e. types 0 and 1; type 2 is int64_t,
    type 3 starts with itself; a union of three members a, b, c where -5 means c. *)
Definition ex_int : fdesc := Fdesc (DtInt I64) DtNone DtNone 8 0 0 (Some 2%nat).
Definition ex_arr : fdesc := Fdesc DtArray DtPointer DtStruct 16 0 0 (Some 1%nat).
Definition ex_self : fdesc := Fdesc DtPointer DtStruct DtStruct 0 0 0 (Some 3%nat).
Definition ex_tds (t : nat) : tdesc :=
  nth t [Tdesc None true (Some ex_arr); Tdesc None true (Some ex_int); Tdesc None true None; Tdesc None false (Some ex_self)] (Tdesc None false None).
Definition ex_fd : fdesc := Fdesc DtStruct DtNone DtNone 0 0 0 (Some 0%nat).
Definition ex_u : udesc := Udesc [[97]; [98]; [99]] [(2 ^ 64 - 5, 2%nat)].
Definition ex_mem (x : Z) : memory :=
  Memory (fun a => if a =? 208 then x mod 2 ^ 64 else 0) (fun a => if a =? 116 then 200 else 0) (fun _ => []).
Definition ex_flags : flags :=
  match union_discriminators (fun t => bool_decide (is_Some (t_first (ex_tds t)))) (fun t => t_first (ex_tds t) ≫= d_td) (Nat.eqb 2) 5
    (Flags (fun _ => false) (fun _ => false)) [3%nat; 0%nat; 1%nat; 2%nat] with Some fl => fl | None => Flags (fun _ => false) (fun _ => false) end.
Example C70_case :
  (forall x f y, (x < 4)%nat -> t_first (ex_tds x) = Some f -> d_td f = Some y -> (y < 4)%nat) /\
  union_discriminators (fun t => bool_decide (is_Some (t_first (ex_tds t)))) (fun t => t_first (ex_tds t) ≫= d_td) (Nat.eqb 2) 5
    (Flags (fun _ => false) (fun _ => false)) [3%nat; 0%nat; 1%nat; 2%nat] = Some ex_flags /\
  (forall t, t_disc (ex_tds t) = is_disc ex_flags t) /\
  (forall t f, t_first (ex_tds t) = Some f -> fd_wf f) /\ fd_wf ex_fd /\
  by_type ex_tds (ex_mem 1) ex_u 9 DtStruct ex_fd 100 = Some (Some 1%nat) /\
  by_type ex_tds (ex_mem (-5)) ex_u 9 DtStruct ex_fd 100 = Some (Some 2%nat) /\
  by_type ex_tds (ex_mem 7) ex_u 9 DtStruct ex_fd 100 = Some (Some 0%nat) /\
  found ex_tds (ex_mem (-5)) (field_type ex_fd) 100 (DvNum (-5)) /\ means ex_u (DvNum (-5)) 2%nat.
Proof.
  split; [|split; [vm_compute; reflexivity|split; [|split; [|split; [|split; [vm_compute; reflexivity|split; [vm_compute; reflexivity|split; [vm_compute; reflexivity|split]]]]]]]].
  - intros x f y Hx Hf Hy. do 4 (destruct x as [|x]; [cbn in Hf; simplify_eq; cbn in Hy; simplify_eq; lia|]). lia.
  - intros t. do 4 (destruct t as [|t]; [vm_compute; reflexivity|]). destruct t; vm_compute; reflexivity.
  - intros t f Hf. do 4 (destruct t as [|t]; [cbn in Hf; simplify_eq; by repeat split|]). destruct t; done.
  - by repeat split.
  - apply (F_comp _ _ 0%nat ex_arr); [done|done|]. apply F_arr. apply F_ptr; [done|].
    apply (F_comp _ _ 1%nat ex_int); [done|done|]. apply (F_int ex_tds (ex_mem (-5)) I64 (200 + 8)).
  - left. exists 0%nat. split; [reflexivity|]. intros j g Hj. lia.
Qed.

(** A fixed union without overrides. *)
Definition ex_plain : udesc := Udesc [[97]; [98]; [99]] [].

(** "check that field index in union is valid and reset to default otherwise"
    (src/mr_save.c:17) is false for discriminators wider than an int: the index is
    converted to int first, so 2^32 + 1 selects member 1. *)
Theorem C70_index_out_of_range_refuted :
  exists tds M u fd a x, d_type fd = DtInt U64 /\ read_as U64 (m_data M a) = x /\
    Z.of_nat (length (u_names u)) <= x /\ u_over u = [] /\
    forall k, by_type tds M u (S k) (d_type fd) fd a = Some (Some 1%nat).
Proof.
  exists ex_tds, (Memory (fun _ => 2 ^ 32 + 1) (fun _ => 0) (fun _ => [])), ex_plain, (Fdesc (DtInt U64) DtNone DtNone 0 0 0 (Some 2%nat)), 100, (2 ^ 32 + 1).
  split; [done|]. split; [vm_compute; reflexivity|]. split; [vm_compute; done|]. split; [done|]. intros k. vm_compute. reflexivity.
Qed.
Print Assumptions C70_index_out_of_range_refuted.

(** An override is not only found for its own value: 128 bit discriminators are
    converted to uint64_t (src/mr_save.c:44, 90). *)
Theorem C70_wide_override_refuted :
  exists tds M u fd a x, d_type fd = DtInt U128 /\ read_as U128 (m_data M a) = x /\
    (forall k f, u_over u !! k <> Some (x, f)) /\ Z.of_nat (length (u_names u)) <= x /\
    forall k, by_type tds M u (S k) (d_type fd) fd a = Some (Some 2%nat).
Proof.
  exists ex_tds, (Memory (fun _ => 2 ^ 64 + 5) (fun _ => 0) (fun _ => [])), (Udesc [[97]; [98]; [99]] [(5, 2%nat)]), (Fdesc (DtInt U128) DtNone DtNone 0 0 0 None), 100, (2 ^ 64 + 5).
  split; [done|]. split; [vm_compute; reflexivity|]. split; [|split; [vm_compute; done|]].
  - intros [|k] f; cbn; [|done]. intros [= ?].
  - intros k. vm_compute. reflexivity.
Qed.
Print Assumptions C70_wide_override_refuted.

(** A signed bit-field is read without its sign, as mr_type_aux is missing from the
    descriptor built at src/mr_save.c:103: of three bits holding -1, for which there is an
    override, the override is not found, though reading the field in the usual way
    (C15) gives -1.  An int8_t holding -1 finds it. *)
Theorem C70_signed_bitfield_refuted :
  exists tds M u fd fd8 a byte, d_type fd = DtBits /\ d_type fd8 = DtInt I8 /\ m_data M a = byte /\
    save_bitfield [byte] 0 (d_shift fd) (d_width fd) true = Some ((-1) mod 2 ^ 128) /\ read_as I8 byte = -1 /\
    overridden u (-1) 2%nat /\
    (forall k, by_type tds M u (S k) (d_type fd8) fd8 a = Some (Some 2%nat)) /\
    (forall k, by_type tds M u (S k) (d_type fd) fd a = Some (Some 0%nat)).
Proof.
  exists ex_tds, (Memory (fun _ => 255) (fun _ => 0) (fun _ => [])), (Udesc [[97]; [98]; [99]] [(2 ^ 64 - 1, 2%nat)]),
    (Fdesc DtBits (DtInt I8) DtNone 0 2 3 None), (Fdesc (DtInt I8) DtNone DtNone 0 0 0 None), 100, 255.
  split; [done|]. split; [done|]. split; [done|]. split; [vm_compute; reflexivity|]. split; [vm_compute; reflexivity|].
  split; [exists 0%nat; split; [reflexivity|intros j g Hj; lia]|]. split; intros k; vm_compute; reflexivity.
Qed.
Print Assumptions C70_signed_bitfield_refuted.
