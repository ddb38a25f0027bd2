(** C79: what validation leaves of a descriptor (src/metaresc.c:1751-1862). *)
From Coq Require Import String Ascii.
From Verif Require Import Base TypeName TypeNameProof ArrayGeom Detect P_TypeName DetectProof P_Detect.
Local Open Scope list_scope.
Local Open Scope Z_scope.

(** *** The statements' own vocabulary *)
(** The type of the type descriptor, if there is one. *)
Definition dtype (reg : list tdesc) (s : stype) : option Z := i ← st_tdp s; d ← reg !! i; Some (d_type d).
Definition points_well (reg : list tdesc) (s : stype) : Prop :=
  forall i, st_tdp s = Some i -> exists d, reg !! i = Some d.
(** Numbers, characters, strings, truth values, function pointers: they can be
    handled without a type descriptor. *)
Definition scalar (t : Z) : Prop := 1 <= t <= 21 /\ t <> M_VOID \/ t = M_FUNC_TYPE.
(** Structures, enumerations, unions: they cannot. *)
Definition described (t : Z) : Prop := t = M_STRUCT \/ t = M_ENUM \/ t = M_UNION.
(** Objects that can be pointed to and put into arrays. *)
Definition object (t : Z) (dt : option Z) : Prop :=
  described t /\ dt = Some t \/ scalar t /\ (dt = None \/ dt = Some t).
Inductive consistent (reg : list tdesc) (s : stype) : Prop :=
| consistent_opaque : st_mt s = M_VOID \/ st_mt s = M_FUNC -> consistent reg s
| consistent_object : object (st_mt s) (dtype reg s) -> consistent reg s
| consistent_anon : st_mt s = M_ANON_UNION \/ st_mt s = M_NAMED_ANON_UNION -> dtype reg s = Some (st_mt s) -> consistent reg s
| consistent_chars : st_mt s = M_CHAR_ARRAY -> dtype reg s = Some M_CHAR -> consistent reg s
| consistent_bits : st_mt s = M_BITFIELD ->
    (3 <= st_aux s <= 15 /\ st_aux s <> M_VOID \/ st_aux s = M_ENUM /\ dtype reg s = Some M_ENUM) -> consistent reg s
| consistent_array : st_mt s = M_ARRAY ->
    (st_aux s = M_POINTER /\ dtype reg s <> None \/ object (st_aux s) (dtype reg s)) -> consistent reg s
| consistent_pointer : st_mt s = M_POINTER ->
    (st_aux s = M_VOID \/ st_aux s = M_POINTER /\ dtype reg s <> None \/ object (st_aux s) (dtype reg s)) -> consistent reg s.

(** The conditions of [consistent], a void pointer's descriptor being one of
    "void". *)
Definition strict (t a : Z) (dt : option Z) : Prop :=
  t = M_VOID \/ t = M_FUNC \/ t = M_NONE \/ t = M_END_ANON_UNION \/ t = M_LAST \/
  object t dt \/ (t = M_ANON_UNION \/ t = M_NAMED_ANON_UNION) /\ dt = Some t \/
  t = M_CHAR_ARRAY /\ dt = Some M_CHAR \/
  t = M_BITFIELD /\ (3 <= a <= 15 /\ a <> M_VOID \/ a = M_ENUM /\ dt = Some M_ENUM) \/
  t = M_ARRAY /\ (a = M_POINTER /\ dt <> None \/ object a dt) \/
  t = M_POINTER /\ (a = M_VOID /\ (dt = None \/ dt = Some M_VOID) \/ a = M_POINTER /\ dt <> None \/ object a dt).

Ltac consts := unfold object, described, scalar, M_NONE, M_STRING, M_CHAR_ARRAY, M_CHAR, M_VOID, M_BOOL, M_STRUCT, M_ENUM, M_FUNC_TYPE,
  M_FUNC, M_BITFIELD, M_ARRAY, M_POINTER, M_UNION, M_ANON_UNION, M_NAMED_ANON_UNION, M_END_ANON_UNION, M_LAST in *.

Lemma all_types (P : Z -> Prop) : Forall P (seqZ 0 34) -> forall t, 0 <= t <= M_LAST -> P t.
Proof. intros H t Ht. rewrite Forall_forall in H. apply H, elem_of_seqZ. consts. lia. Qed.
Ltac by_types :=
  match goal with |- forall t, _ -> @?Q t => apply (all_types Q) end;
  let l := eval vm_compute in (seqZ 0 34) in change (seqZ 0 34) with l;
  repeat apply Forall_cons_2; [..|apply Forall_nil_2];
  intros a; unfold in_mask, int_types, typed_types, valid_pointer_aux; consts;
  cbn [existsb Z.eqb Pos.eqb orb andb negb Z.leb Z.compare Pos.compare Pos.compare_cont];
  try (destruct (a =? 28) eqn:?); lia.

Lemma fits_spec reg s : points_well reg s -> 0 <= st_mt s <= M_LAST ->
  exists b, stype_fits reg s = Some b /\ (b = true <-> strict (st_mt s) (st_aux s) (dtype reg s)).
Proof.
  intros Hp Hr.
  assert (exists dt, dtype reg s = dt /\
    match st_tdp s with Some i => t ← td_mt reg i; Some (Some t) | None => Some None end = Some dt) as (dt & -> & Hdt).
  { unfold td_mt, dtype. destruct (st_tdp s) as [i|] eqn:Ei; [|by exists None].
    destruct (Hp i Ei) as [d Hd]. cbn [mbind option_bind]. rewrite Hd. by exists (Some (d_type d)). }
  unfold stype_fits. rewrite Hdt. cbn [mbind option_bind].
  clear Hdt Hp. destruct dt as [x|].
  all: eexists; (split; [reflexivity|]).
  - generalize dependent (st_mt s). generalize (st_aux s). intros a t Hr. unfold strict, object, described, scalar.
    assert (forall y z : Z, (Some y = Some z) <-> y = z) as Hi by (intros; split; congruence). rewrite !Hi. clear Hi.
    assert (forall y : Z, (Some y <> None) <-> True) as Hs by done. rewrite !Hs. 
    assert ((Some x = None) <-> False) as Hn by done. rewrite !Hn. clear Hs Hn.
    clear s reg. rewrite !(Z.eqb_sym _ x). revert a. revert t Hr. by_types.
  - generalize dependent (st_mt s). generalize (st_aux s). intros a t Hr. unfold strict, object, described, scalar.
    assert (forall y : Z, (None = Some y) <-> False) as Hs by done. rewrite !Hs. clear Hs.
    assert ((@None Z = None) <-> True) as Hn by done. rewrite !Hn. clear Hn.
    clear s reg. revert a. revert t Hr. by_types.
Qed.

Lemma strict_consistent reg s : strict (st_mt s) (st_aux s) (dtype reg s) ->
  st_mt s <> M_NONE -> st_mt s <> M_END_ANON_UNION -> st_mt s <> M_LAST -> consistent reg s.
Proof.
  intros H H0 H1 H2. unfold strict in H.
  destruct H as [H|[H|[H|[H|[H|[H|[[H H']|[[H H']|[[H H']|[[H H']|[H H']]]]]]]]]]]; try done.
  - apply consistent_opaque; auto.
  - apply consistent_opaque; auto.
  - by apply consistent_object.
  - by apply consistent_anon.
  - by apply consistent_chars.
  - by apply consistent_bits.
  - by apply consistent_array.
  - apply consistent_pointer; [done|]. destruct H' as [[H' _]|[H'|H']]; auto.
Qed.
Lemma consistent_strict reg s : consistent reg s ->
  strict (st_mt s) (st_aux s) (dtype reg s) \/ st_mt s = M_POINTER /\ st_aux s = M_VOID.
Proof.
  intros H. unfold strict. destruct H as [H|H|H H'|H H'|H H'|H H'|H H'].
  - left. destruct H; auto.
  - left. auto 10.
  - left. auto 10.
  - left. do 7 right. auto.
  - left. do 8 right. auto.
  - left. do 9 right. auto.
  - destruct H' as [H'|H']; [by right|]. left. do 10 right. auto.
Qed.
Lemma consistent_range reg s : consistent reg s -> st_mt s <> M_NONE /\ st_mt s <> M_END_ANON_UNION /\ st_mt s <> M_LAST.
Proof. intros H. destruct H as [H|H|H _|H _|H _|H _|H _]; consts; lia. Qed.

(** C79: validation leaves a consistent descriptor as it is, makes any other one
    opaque (a pointer becomes a void pointer), touches nothing but the two types,
    and has nothing left to do after that. *)
Theorem C79_validate : forall reg s, points_well reg s -> 0 <= st_mt s <= M_LAST ->
  exists ok s', validate_stype reg s = Some (ok, s') /\ consistent reg s' /\
    (consistent reg s -> s' = s) /\
    (~ consistent reg s -> if decide (st_mt s = M_POINTER) then st_mt s' = M_POINTER /\ st_aux s' = M_VOID else st_mt s' = M_VOID) /\
    s' = Stype (st_tdp s) (st_type s) (st_mt s') (st_aux s') (st_class s) (st_array s) (st_bitfield s) (st_size s) (st_dims s) /\
    exists ok', validate_stype reg s' = Some (ok', s').
Proof.
  intros reg s Hp Hr. destruct (fits_spec reg s Hp Hr) as (b & Eb & Hb). unfold validate_stype at 1. rewrite Eb. cbn [mbind option_bind].
  assert (Hagain : forall s', st_tdp s' = st_tdp s -> 0 <= st_mt s' <= M_LAST ->
    consistent reg s' -> exists ok', validate_stype reg s' = Some (ok', s')).
  { intros s' Ht Hr' Hc. destruct (fits_spec reg s') as (b' & Eb' & Hb'); [unfold points_well; by rewrite Ht|done|].
    unfold validate_stype. rewrite Eb'. cbn [mbind option_bind].
    destruct (consistent_range _ _ Hc) as (N1 & N2 & N3).
    assert (in_mask [M_NONE; M_END_ANON_UNION; M_LAST] (st_mt s') = false) as ->.
    { unfold in_mask. cbn [existsb]. rewrite !(proj2 (Z.eqb_neq _ _)) by done. done. }
    destruct b'; [eauto|]. destruct (consistent_strict _ _ Hc) as [Hs|[E1 E2]]; [by apply Hb' in Hs|].
    rewrite E1. change (negb (M_POINTER =? M_POINTER)) with false. cbv iota. exists false. f_equal. f_equal.
    destruct s'. cbn in *. subst. done. }
  destruct (in_mask [M_NONE; M_END_ANON_UNION; M_LAST] (st_mt s)) eqn:Em.
  - assert (b = true) as ->.
    { apply Hb. unfold strict. unfold in_mask in Em. cbn [existsb] in Em. consts. lia. }
    exists true, (set_mt M_VOID s). split; [done|].
    assert (Hc : consistent reg (set_mt M_VOID s)) by (apply consistent_opaque; by left).
    split; [done|]. split.
    { intros H. apply consistent_range in H. unfold in_mask in Em. cbn [existsb] in Em. consts. lia. }
    split; [|split; [by destruct s|apply Hagain; [done|cbn; consts; lia|done]]].
    intros _. case_decide as E; [|done]. rewrite E in Em. by vm_compute in Em.
  - assert (st_mt s <> M_NONE /\ st_mt s <> M_END_ANON_UNION /\ st_mt s <> M_LAST) as (N1 & N2 & N3).
    { unfold in_mask in Em. cbn [existsb] in Em. consts. lia. }
    destruct b.
    + exists true, s. split; [done|]. assert (Hc : consistent reg s) by (apply strict_consistent; [by apply Hb|done..]).
      split; [done|]. split; [done|]. split; [done|]. split; [by destruct s|]. by apply Hagain.
    + destruct (decide (st_mt s = M_POINTER)) as [E|E].
      * rewrite E. change (negb (M_POINTER =? M_POINTER)) with false. cbv iota.
        exists false, (set_aux M_VOID s). split; [done|].
        assert (Hc : consistent reg (set_aux M_VOID s)) by (apply consistent_pointer; [done|by left]).
        split; [done|]. split.
        { intros H. destruct (consistent_strict _ _ H) as [Hs|[_ E2]]; [by apply Hb in Hs|]. destruct s. cbn in *. by subst. }
        split; [by cbn|]. split; [by destruct s|]. by apply Hagain.
      * rewrite (proj2 (Z.eqb_neq _ _)) by done. cbn [negb].
        exists false, (set_aux M_VOID (set_mt M_VOID s)). split; [done|].
        assert (Hc : consistent reg (set_aux M_VOID (set_mt M_VOID s))) by (apply consistent_opaque; by left).
        split; [done|]. split.
        { intros H. destruct (consistent_strict _ _ H) as [Hs|[E2 _]]; [by apply Hb in Hs|done]. }
        split; [done|]. split; [by destruct s|]. apply Hagain; [done|cbn; consts; lia|done].
Qed.
Print Assumptions C79_validate.

(** C79: the same for all fields of a structure or union. *)
Theorem C79_fields : forall reg mt fields, mt = M_STRUCT \/ mt = M_UNION \/ mt = M_ANON_UNION \/ mt = M_NAMED_ANON_UNION ->
  Forall (fun s => points_well reg s /\ 0 <= st_mt s <= M_LAST) fields ->
  exists fields', validate_td reg mt fields = Some fields' /\ Forall (consistent reg) fields' /\
    Forall2 (fun s s' => (consistent reg s -> s' = s) /\ st_tdp s' = st_tdp s /\ st_size s' = st_size s) fields fields'.
Proof.
  intros reg mt fields Hmt H. unfold validate_td.
  assert (in_mask struct_types mt = true) as -> by (destruct Hmt as [-> |[-> |[-> | ->]]]; done).
  induction H as [|s fields [Hp Hr] H IH]; [by exists []|].
  destruct (C79_validate reg s Hp Hr) as (ok & s' & Ev & Hc & Hsame & _ & Hfr & _).
  destruct IH as (fields' & Ef & Hf & H2).
  exists (s' :: fields'). cbn [mapM]. rewrite Ev. cbn [mbind option_bind snd]. rewrite Ef. split; [done|].
  split; [by constructor|]. constructor; [|done]. split; [done|]. rewrite Hfr. done.
Qed.
Print Assumptions C79_fields.

(** *** What detection gives *)
Definition ranged (reg : list tdesc) (s : stype) : Prop := 0 <= st_mt s <= M_LAST /\ 0 <= st_aux s <= M_LAST.

Lemma resolve_range reg s type s' o : Forall (fun d => 0 <= d_type d <= M_LAST) reg ->
  ranged reg s -> resolve_name reg s type = Some (s', o) ->
  ranged reg s' /\ forall i, o = Some i -> exists d, reg !! i = Some d.
Proof.
  intros Hreg [H1 H2] H. unfold resolve_name in H.
  assert (Ht : forall i t, td_mt reg i = Some t -> 0 <= t <= M_LAST).
  { intros i t E. unfold td_mt in E. destruct (reg !! i) as [d|] eqn:Ei; [|done]. injection E as <-.
    rewrite Forall_forall in Hreg. apply Hreg. by eapply elem_of_list_lookup_2. }
  assert (Hn : forall n i, td_by_name reg n = Some i -> exists d, reg !! i = Some d).
  { intros n i E. apply by_name_some in E as (d & ? & _). eauto. }
  assert (HP : 0 <= M_POINTER <= M_LAST) by (consts; lia).
  destruct (td_by_name reg type) as [i|] eqn:E.
  - destruct (td_mt reg i) as [t|] eqn:Et; [|done]. injection H as <- <-. split; [|intros i' [= <-]; eauto].
    destruct (st_mt s =? M_BITFIELD); [split; [done|exact (Ht _ _ Et)]|]. match goal with |- context [if ?b then _ else _] => destruct b end; [split; [exact (Ht _ _ Et)|done]|done].
  - destruct (in_mask none_or_pointer (st_mt s)); [|by injection H as <- <-].
    destruct (type_is_a_pointer type) as [[[] type']|] eqn:Ep; [| |done]; [|by injection H as <- <-].
    cbn [mbind option_bind] in H. destruct (td_by_name reg type') as [i|] eqn:E'.
    + destruct (td_mt reg i) as [t|] eqn:Et; [|done]. injection H as <- <-. split; [|intros i' [= <-]; eauto].
      split; [done|exact (Ht _ _ Et)].
    + destruct (in_mask none_or_pointer (st_aux (set_mt M_POINTER s))); [|by injection H as <- <-].
      destruct (type_is_a_pointer type') as [[[] type2]|] eqn:Ep2; [| |done]; [|by injection H as <- <-].
      cbn [mbind option_bind] in H. injection H as <- <-. split; [done|]. intros i E2. eauto.
Qed.

(** C79: whatever the declaration, the descriptor that [mr_detect_type] leaves is
    consistent and [mr_type_base] is the type of its type descriptor. *)
Theorem C79_detected : forall reg s s' base, Forall (fun d => 0 <= d_type d <= M_LAST) reg ->
  0 <= st_mt s <= M_LAST -> 0 <= st_aux s <= M_LAST -> points_well reg s ->
  detect_type reg s = Some (s', base) ->
  consistent reg s' /\ base = default M_VOID (dtype reg s').
Proof.
  intros reg s s' base Hreg H1 H2 Hp H. unfold detect_type, detect_field_type in H.
  destruct (detect_structured_type reg s) as [s1|] eqn:E1; [|done]. cbn [mbind option_bind] in H.
  assert (0 <= st_mt s1 <= M_LAST /\ points_well reg s1) as [Hr1 Hp1].
  { unfold detect_structured_type in E1. destruct (in_mask skip_resolution (st_mt s)); [by injection E1 as <-|].
    destruct (st_type s) as [ty|]; [|by injection E1 as <-].
    destruct (type_is_an_array s ty) as [[sa ty']|] eqn:Ea; [|done]. cbn [mbind option_bind] in E1.
    destruct (normalize_type ty') as [nt|]; [|done]. cbn [mbind option_bind] in E1.
    destruct (resolve_name reg sa nt) as [[sb o]|] eqn:Er; [|done]. cbn [mbind option_bind] in E1.
    assert (Ha : ranged reg sa).
    { unfold type_is_an_array in Ea. destruct ty as [|c ty]; [by injection Ea as <- <-|].
      destruct (mapM _ _) as [counts|]; [|done]. cbn [mbind option_bind] in Ea.
      destruct (collect_dims counts) as [dims|]; [|done]. cbn [mbind option_bind] in Ea. injection Ea as <- _.
      destruct (_ && _); done. }
    destruct (resolve_range reg sa nt sb o Hreg Ha Er) as [Hb Ho].
    assert (Hs : ranged reg (settle sb)).
    { unfold settle, ranged. destruct Hb as [Hb1 Hb2]. 
      repeat match goal with |- context [if ?b then _ else _] => destruct b; cbn [st_mt st_aux set_mt set_aux] end; consts; lia. }
    set (sc := set_tdp (basic_tdp reg (settle sb) o) (settle sb)) in E1.
    assert (Hc : ranged reg sc) by done.
    assert (Hpc : points_well reg sc).
    { intros i Hi. cbn in Hi. unfold basic_tdp in Hi. destruct (type_name _) as [nm|]; [|by apply Ho].
      apply by_name_some in Hi as (d & ? & _). eauto. }
    clearbody sc. set (sw := wrap_array_bitfield sc) in E1.
    assert (Hw : 0 <= st_mt sw <= M_LAST /\ points_well reg sw).
    { subst sw. unfold wrap_array_bitfield. destruct (st_array sc); cbn; (destruct (st_bitfield sc); cbn); (split; [|exact Hpc]);
        destruct Hc; consts; lia. }
    clearbody sw. unfold detect_size in E1.
    destruct (negb (st_size sw =? 0)); [by injection E1 as <-|].
    destruct (negb (_ =? 0)); [by injection E1 as <-|].
    destruct Hw as [Hw1 Hw2]. cbn [st_tdp set_size] in E1.
    destruct (st_tdp sw) as [i|] eqn:Ei.
    - destruct (Hw2 i Ei) as [d Hd]. rewrite Hd in E1. cbn [mbind option_bind] in E1.
      destruct (_ =? M_ARRAY); injection E1 as <-; [destruct (_ =? M_POINTER)|]; done.
    - cbn [mbind option_bind] in E1. destruct (_ =? M_ARRAY); injection E1 as <-; [destruct (_ =? M_POINTER)|]; done. }
  destruct (C79_validate reg s1 Hp1 Hr1) as (ok & s2 & Ev & Hc & _ & _ & Hfr & _).
  assert (Ht : st_tdp s2 = st_tdp s1) by (by rewrite Hfr).
  assert (exists b, (match st_tdp s1 with Some i => td_mt reg i | None => Some M_VOID end) = Some b /\ b = default M_VOID (dtype reg s1))
    as (b & Eb & Hb).
  { unfold dtype, td_mt. destruct (st_tdp s1) as [i|] eqn:Ei; [|by exists M_VOID].
    destruct (Hp1 i Ei) as [d Hd]. cbn [mbind option_bind]. rewrite Hd. by exists (d_type d). }
  rewrite Eb in H. cbn [mbind option_bind] in H. rewrite Ev in H. cbn [mbind option_bind snd] in H. injection H as <- <-.
  split; [done|]. unfold dtype. rewrite Ht. done.
Qed.
Print Assumptions C79_detected.

(** C79: making a field opaque by hand keeps what it was as the second type
    (that of the elements, bits or target of an array, bit field or pointer), and
    the result is consistent. *)
Theorem C79_void : forall reg s, let s' := void_field s in
  st_mt s' = M_VOID /\ consistent reg s' /\
  st_aux s' = (if decide (st_mt s ∈ [M_VOID; M_BITFIELD; M_ARRAY; M_POINTER]) then st_aux s else st_mt s) /\
  st_tdp s' = st_tdp s /\ st_size s' = st_size s /\ st_dims s' = st_dims s.
Proof.
  intros reg s s'. assert (st_mt s' = M_VOID) as E.
  { subst s'. unfold void_field. destruct (Z.eqb_spec (st_mt s) M_VOID); [done|]. by destruct (_ && _). }
  split; [done|]. split; [apply consistent_opaque; by left|]. subst s'. clear E. unfold void_field.
  destruct (Z.eqb_spec (st_mt s) M_VOID) as [E|E].
  { rewrite decide_True by (rewrite E, elem_of_cons; auto). done. }
  destruct (decide (st_mt s ∈ [M_VOID; M_BITFIELD; M_ARRAY; M_POINTER])) as [H|H].
  - rewrite !elem_of_cons, elem_of_nil in H.
    assert (negb (st_mt s =? M_BITFIELD) && negb (st_mt s =? M_ARRAY) && negb (st_mt s =? M_POINTER) = false) as -> by lia. done.
  - rewrite !elem_of_cons, elem_of_nil in H.
    assert (negb (st_mt s =? M_BITFIELD) && negb (st_mt s =? M_ARRAY) && negb (st_mt s =? M_POINTER) = true) as -> by lia. done.
Qed.
Print Assumptions C79_void.

(** *** Cases *)
(** A field that is consistent and stays, a pointer to an anonymous union that
    becomes a void pointer, an array of unknown things and a structure with the
    descriptor of an enumeration that become opaque. *)
Definition ex_reg79 : list tdesc := [Tdesc (codes "foo") M_STRUCT 24; Tdesc (codes "e_t") M_ENUM 4; Tdesc (codes "u") M_ANON_UNION 8].
Definition ex_st (mt aux : Z) (tdp : option nat) : stype := Stype tdp (Some (codes "x")) mt aux false false false 8 [].
Example C79_case :
  points_well ex_reg79 (ex_st M_POINTER M_STRUCT (Some 0%nat)) /\
  consistent ex_reg79 (ex_st M_POINTER M_STRUCT (Some 0%nat)) /\
  ~ consistent ex_reg79 (ex_st M_POINTER M_ANON_UNION (Some 2%nat)) /\
  validate_td ex_reg79 M_STRUCT
    [ex_st M_POINTER M_STRUCT (Some 0%nat); ex_st M_POINTER M_ANON_UNION (Some 2%nat); ex_st M_ARRAY M_VOID None;
     ex_st M_STRUCT M_NONE (Some 1%nat); ex_st M_BITFIELD M_ENUM (Some 1%nat)] =
  Some [ex_st M_POINTER M_STRUCT (Some 0%nat); ex_st M_POINTER M_VOID (Some 2%nat); ex_st M_VOID M_VOID None;
     ex_st M_VOID M_VOID (Some 1%nat); ex_st M_BITFIELD M_ENUM (Some 1%nat)].
Proof.
  split; [intros i [= <-]; eauto|]. split.
  { apply consistent_pointer; [done|]. right. right. left. split; [by left|done]. }
  split; [|vm_compute; reflexivity].
  intros H. assert (E : dtype ex_reg79 (ex_st M_POINTER M_ANON_UNION (Some 2%nat)) = Some M_ANON_UNION) by done.
  destruct H as [H|H|H H'|H H'|H H'|H H'|H H']; cbn [st_mt st_aux ex_st] in *; try (rewrite ?E in *; consts; lia).
Qed.
Example C79_detected_case : exists s' b,
  Forall (fun d => 0 <= d_type d <= M_LAST) ex_reg79 /\
  detect_type ex_reg79 (Stype None (Some (codes "struct foo * const *")) M_NONE M_NONE true false false 8 []) = Some (s', b) /\
  st_mt s' = M_POINTER /\ st_aux s' = M_POINTER /\ dtype ex_reg79 s' = Some M_STRUCT /\ b = M_STRUCT.
Proof.
  eexists _, _. split; [repeat constructor; done|]. split; [vm_compute; reflexivity|]. done.
Qed.
