(** C93: descriptors of types from debug information (src/mr_dwarf.c:879-905, 978-1032, 1082-1099, 1231-1272, 1274-1362). *)
From Coq Require Import Ascii String.
From stdpp Require Import list.
From Verif Require Import Base Dwarf DwarfType P_Dwarf.
From Verif Require Enum Names.
Local Open Scope Z_scope.

(** *** Which entries become types *)
(** Behind [n] typedefs of the entry [d] is the entry [r], or nothing, as for [typedef void]. *)
Inductive chain (g : list die) : die -> nat -> option die -> Prop :=
| c_end d : tag d <> T_typedef -> chain g d 0 (Some d)
| c_void d : tag d = T_typedef -> type_ref d = None -> chain g d 0 None
| c_next d o d' n r : tag d = T_typedef -> type_ref d = Some o -> find_die g o = Some d' -> chain g d' n r -> chain g d (S n) r.
(** [d] defines the type [name], whose description is in the entry [d']. *)
Definition defines (decl : Z -> bool) (g : list die) (d : die) (name : list Z) (d' : die) : Prop :=
  tag d ∈ [T_typedef; T_structure; T_union; T_enumeration] /\ decl (off d) = false /\ dname d = Some name /\
  exists n, chain g d n (Some d') /\ tag d' ∈ [T_structure; T_union; T_enumeration; T_pointer].

Lemma resolve_ok g d n r : chain g d n r -> forall fuel, (n < fuel)%nat -> resolve fuel g d = Some r.
Proof.
  induction 1 as [d H|d H H0|d o d' n r H H0 H1 C IH]; intros fuel L; (destruct fuel as [|fuel]; [lia|]); cbn [resolve].
  - by destruct (tag d).
  - by rewrite H, H0.
  - rewrite H, H0, H1. cbn [mbind option_bind]. apply IH. lia.
Qed.
Lemma chain_fun g d n r : chain g d n r -> forall m s, chain g d m s -> r = s.
Proof.
  induction 1 as [d H|d H H0|d o d' n r H H0 H1 C IH]; intros m s K; inversion K; subst; try done; try congruence.
  eapply IH. assert (d' = d'0) as -> by congruence. eassumption.
Qed.

(** What create_td would add for a name, by computation. *)
Definition cand (fuel : nat) (decl : Z -> bool) (g : list die) (name : list Z) (d : die) : option die :=
  if match tag d with T_typedef | T_structure | T_union | T_enumeration => true | _ => false end && negb (decl (off d)) && bool_decide (dname d = Some name)
  then match resolve fuel g d with Some (Some d') => if makes_type (tag d') then Some d' else None | _ => None end
  else None.
Fixpoint first (fuel : nat) (decl : Z -> bool) (g : list die) (name : list Z) (ds : list die) : option die :=
  match ds with [] => None | d :: ds => match cand fuel decl g name d with Some d' => Some d' | None => first fuel decl g name ds end end.

Lemma find_td_app tab n d name : find_td (tab ++ [(n, d)]) name =
  match find_td tab name with Some x => Some x | None => if bool_decide (n = name) then Some d else None end.
Proof. induction tab as [|[a b] tab IH]; cbn [app find_td]; [done|]. destruct (bool_decide (a = name)); [done|exact IH]. Qed.

Lemma create_tds_ok fuel decl g ds : forall tab, (forall d, d ∈ ds -> exists r, resolve fuel g d = Some r) ->
  exists tab', create_tds fuel decl g tab ds = Some tab' /\
    forall name, find_td tab' name = match find_td tab name with Some x => Some x | None => first fuel decl g name ds end.
Proof.
  induction ds as [|d ds IH]; intros tab R; cbn [create_tds first].
  - exists tab. split; [done|]. intros name. by destruct (find_td tab name).
  - destruct (R d) as (r & Hr); [by constructor|].
    assert (exists tab1, match tag d with T_typedef | T_structure | T_union | T_enumeration => create_td fuel decl g tab d | _ => Some tab end = Some tab1 /\
      forall name, find_td tab1 name = match find_td tab name with Some x => Some x | None => cand fuel decl g name d end) as (tab1 & -> & H1).
    { assert (forall name, find_td tab name = match find_td tab name with Some x => Some x | None => None end) as Triv by (intros name; by destruct (find_td tab name)).
      unfold cand. set (isT := match tag d with T_typedef | T_structure | T_union | T_enumeration => true | _ => false end).
      assert (isT = false \/ isT = true /\ match tag d with T_typedef | T_structure | T_union | T_enumeration => create_td fuel decl g tab d | _ => Some tab end = create_td fuel decl g tab d) as [E|[E ->]]
        by (subst isT; destruct (tag d); tauto).
      { exists tab. split; [subst isT; by destruct (tag d)|]. intros name. rewrite E. cbn [andb]. apply Triv. }
      unfold create_td. rewrite E. cbn [andb]. destruct (decl (off d)); cbn [negb andb]; [by exists tab|].
      destruct (dname d) as [n|] eqn:EN.
      2:{ exists tab. split; [done|]. intros name. rewrite bool_decide_eq_false_2 by done. apply Triv. }
      destruct (find_td tab n) as [x|] eqn:F.
      { exists tab. split; [done|]. intros name. destruct (bool_decide_reflect (Some n = Some name)) as [[= <-]|_]; [by rewrite F|apply Triv]. }
      rewrite Hr. cbn [mbind option_bind]. destruct r as [d'|].
      2:{ exists tab. split; [done|]. intros name. destruct (bool_decide _); apply Triv. }
      destruct (makes_type (tag d')).
      2:{ exists tab. split; [done|]. intros name. destruct (bool_decide _); apply Triv. }
      eexists. split; [done|]. intros name. rewrite find_td_app. destruct (find_td tab name); [done|].
      destruct (bool_decide_reflect (n = name)) as [<-|N].
      - by rewrite bool_decide_eq_true_2.
      - rewrite bool_decide_eq_false_2; [done|]. congruence. }
    cbn [mbind option_bind]. destruct (IH tab1) as (tab' & E & H2); [intros e M; apply R; by constructor|].
    exists tab'. split; [done|]. intros name. rewrite H2, H1. destruct (find_td tab name); [done|]. by destruct (cand fuel decl g name d).
Qed.

Lemma find_td_none tab name : find_td tab name = None -> name ∉ map fst tab.
Proof.
  induction tab as [|[n d] tab IH]; cbn [find_td map fst]; [intros _; apply not_elem_of_nil|].
  destruct (bool_decide_reflect (n = name)) as [|N]; [done|]. intros H. apply not_elem_of_cons. split; [congruence|by apply IH].
Qed.
Lemma create_tds_nodup fuel decl g ds : forall tab tab', NoDup (map fst tab) -> create_tds fuel decl g tab ds = Some tab' -> NoDup (map fst tab').
Proof.
  induction ds as [|d ds IH]; intros tab tab' ND; cbn [create_tds]; [by intros [= <-]|]. intros H. apply bind_Some in H as (tab1 & E & H). eapply IH; [|exact H].
  assert (K : create_td fuel decl g tab d = Some tab1 -> NoDup (map fst tab1)).
  { unfold create_td. destruct (decl (off d)); [by intros [= <-]|]. destruct (dname d) as [n|]; [|by intros [= <-]].
    destruct (find_td tab n) eqn:F; [by intros [= <-]|]. intros K. apply bind_Some in K as ([d'|] & _ & K); [|by injection K as <-].
    destruct (makes_type (tag d')); injection K as <-; [|done]. rewrite map_app. apply NoDup_app. split; [done|]. split; [|cbn; apply NoDup_singleton].
    intros x Hx M. cbn in M. apply elem_of_list_singleton in M as ->. by apply (find_td_none _ _ F). }
  destruct (tag d); first [by apply K|by injection E as <-].
Qed.

Lemma cand_iff fuel decl g name d n r : chain g d n r -> (n < fuel)%nat -> forall d', cand fuel decl g name d = Some d' <-> defines decl g d name d'.
Proof.
  intros C L d'. unfold cand, defines. rewrite (resolve_ok _ _ _ _ C _ L).
  assert (forall t, t ∈ [T_typedef; T_structure; T_union; T_enumeration] <-> match t with T_typedef | T_structure | T_union | T_enumeration => true | _ => false end = true) as M1.
  { intros t. rewrite !elem_of_cons, elem_of_nil. destruct t; naive_solver. }
  assert (forall t, t ∈ [T_structure; T_union; T_enumeration; T_pointer] <-> makes_type t = true) as M2.
  { intros t. rewrite !elem_of_cons, elem_of_nil. destruct t; cbn; naive_solver. }
  split.
  - intros H. destruct (_ && _) eqn:E; [|done]. apply andb_true_iff in E as [E E3]. apply andb_true_iff in E as [E1 E2].
    apply bool_decide_eq_true in E3. destruct r as [x|]; [|done]. destruct (makes_type (tag x)) eqn:K; [|done]. injection H as <-.
    split; [by apply M1|]. split; [by destruct (decl (off d))|]. split; [done|]. exists n. split; [done|]. by apply M2.
  - intros (H1 & H2 & H3 & m & C' & K). apply M1 in H1. rewrite H1, H2. rewrite bool_decide_eq_true_2 by done. cbn [negb andb].
    rewrite (chain_fun _ _ _ _ C _ _ C'). apply M2 in K. by rewrite K.
Qed.

Lemma first_iff fuel decl g name ds d' : first fuel decl g name ds = Some d' <->
  exists i d, ds !! i = Some d /\ cand fuel decl g name d = Some d' /\ forall j e, (j < i)%nat -> ds !! j = Some e -> cand fuel decl g name e = None.
Proof.
  induction ds as [|d ds IH]; cbn [first].
  - split; [done|]. intros (i & d & E & _). done.
  - destruct (cand fuel decl g name d) as [x|] eqn:C.
    + split.
      * intros [= <-]. exists 0%nat, d. split; [done|]. split; [done|]. intros j e L. lia.
      * intros (i & e & E & C' & F). destruct i as [|i]; [injection E as <-; congruence|]. specialize (F 0%nat d ltac:(lia) eq_refl). congruence.
    + rewrite IH. split.
      * intros (i & e & E & C' & F). exists (S i), e. split; [done|]. split; [done|]. intros [|j] f L Hj; [injection Hj as <-; done|]. apply (F j); [lia|done].
      * intros (i & e & E & C' & F). destruct i as [|i]; [injection E as <-; congruence|]. exists i, e. split; [done|]. split; [done|].
        intros j f L Hj. apply (F (S j)); [lia|done].
Qed.

(** For every list of entries the descriptor of the type [name] is made of what the first entry that defines [name]
    stands for; there is one, and only one, exactly if there is such an entry. *)
Theorem C93_types fuel decl g :
  (forall d, d ∈ g -> exists n r, chain g d n r /\ (n < fuel)%nat) ->
  exists tab, extract_types fuel decl g = Some tab /\ NoDup (map fst tab) /\ forall name d',
    find_td tab name = Some d' <->
    exists i d, g !! i = Some d /\ defines decl g d name d' /\
      forall j e x, (j < i)%nat -> g !! j = Some e -> ~ defines decl g e name x.
Proof.
  intros C.
  assert (forall d, d ∈ g -> exists r, resolve fuel g d = Some r) as R.
  { intros d M. destruct (C d M) as (n & r & K & L). exists r. by eapply resolve_ok. }
  destruct (create_tds_ok fuel decl g g [] R) as (tab1 & E1 & H1). destruct (create_tds_ok fuel decl g g tab1 R) as (tab2 & E2 & H2).
  exists tab2. unfold extract_types. rewrite E1. cbn [mbind option_bind]. split; [done|].
  split; [eapply create_tds_nodup; [|exact E2]; eapply create_tds_nodup; [|exact E1]; apply NoDup_nil_2|]. intros name d'.
  assert (find_td tab2 name = first fuel decl g name g) as ->.
  { rewrite H2, H1. cbn [find_td]. by destruct (first fuel decl g name g). }
  rewrite first_iff. split.
  - intros (i & d & E & K & F). exists i, d. split; [done|]. destruct (C d) as (n & r & Ch & L); [by eapply elem_of_list_lookup_2|].
    split; [by apply (cand_iff fuel decl g name d n r Ch L)|]. intros j e x Lj Ej D.
    destruct (C e) as (n' & r' & Ch' & L'); [by eapply elem_of_list_lookup_2|]. apply (cand_iff fuel decl g name e n' r' Ch' L') in D.
    rewrite (F j e Lj Ej) in D. done.
  - intros (i & d & E & K & F). exists i, d. split; [done|]. destruct (C d) as (n & r & Ch & L); [by eapply elem_of_list_lookup_2|].
    split; [by apply (cand_iff fuel decl g name d n r Ch L)|]. intros j e Lj Ej.
    destruct (C e) as (n' & r' & Ch' & L'); [by eapply elem_of_list_lookup_2|].
    destruct (cand fuel decl g name e) as [x|] eqn:Q; [|done]. exfalso. apply (F j e x Lj Ej). by apply (cand_iff fuel decl g name e n' r' Ch' L').
Qed.
Print Assumptions C93_types.

(** A structure, two names for it, a name for [int], a declaration, a name for a pointer. *)
Definition ex_g : list die :=
  [ Die 1 T_structure (Some (lit "node")) None None false []; Die 2 T_structure (Some (lit "node")) (Some 16) None false [];
    Die 3 T_typedef (Some (lit "node_t")) None (Some 2) false []; Die 4 T_typedef (Some (lit "item_t")) None (Some 3) false [];
    Die 5 T_base (Some (lit "int")) (Some 4) None false []; Die 6 T_typedef (Some (lit "int_t")) None (Some 5) false [];
    Die 7 T_pointer None (Some 8) (Some 2) false []; Die 8 T_typedef (Some (lit "ref_t")) None (Some 7) false [];
    Die 9 T_typedef (Some (lit "nothing_t")) None None false [] ].
Example C93_case :
  (forall d, d ∈ ex_g -> exists n r, chain ex_g d n r /\ (n < 4)%nat) /\
  exists tab, extract_types 4 (Z.eqb 1) ex_g = Some tab /\
    fmap off (find_td tab (lit "node")) = Some 2 /\ fmap off (find_td tab (lit "item_t")) = Some 2 /\
    fmap off (find_td tab (lit "ref_t")) = Some 7 /\ find_td tab (lit "int_t") = None /\ find_td tab (lit "nothing_t") = None.
Proof.
  split.
  - intros d M. unfold ex_g in M. rewrite !elem_of_cons in M.
    repeat (destruct M as [-> |M]; [do 2 eexists; split;
      [first [by apply c_end|by apply c_void|eapply c_next; [done..|]; first [by apply c_end|eapply c_next; [done..|]; by apply c_end]]|lia]|]).
    by apply elem_of_nil in M.
  - eexists. split; [vm_compute; reflexivity|]. vm_compute. done.
Qed.

(** REFUTED that both types are known where a structure and a typedef for another type have the same name, which
    C keeps apart: only the first is. *)
Theorem C93_namespaces_refuted name s1 s2 :
  let g := [ Die 1 T_structure (Some name) (Some s1) None false []; Die 2 T_enumeration None (Some s2) None false [];
             Die 3 T_typedef (Some name) None (Some 2) false [] ] in
  exists tab, extract_types 3 (fun _ => false) g = Some tab /\ map (fun p => (p.1, off p.2)) tab = [(name, 1)].
Proof.
  intros g. eexists. split.
  - unfold extract_types, g.
    do 8 (cbn [create_tds create_td tag off dname find_td resolve mbind option_bind makes_type app]; try rewrite (bool_decide_eq_true_2 (name = name)) by done).
    reflexivity.
  - reflexivity.
Qed.
Print Assumptions C93_namespaces_refuted.

(** *** Enumerations *)
(** The values of a type of C. *)
Definition c_range (sg : bool) (size v : Z) : Prop :=
  if sg then - 2 ^ (8 * size - 1) <= v < 2 ^ (8 * size - 1) else 0 <= v < 2 ^ (8 * size).
(** The children of the entry of an enumeration of C: values of the type; DW_FORM_sdata is used for signed types
    only, and for negative values. *)
Definition c_enum (sg : bool) (size : Z) (l : list child) : Prop :=
  forall n s v, Enumerator n s v ∈ l -> c_range sg size v /\ (s = true -> sg = true) /\ (s = false -> 0 <= v).

Lemma loaded l e : e ∈ load_enumerators l <-> exists n s v, Enumerator n s v ∈ l /\ e = Edesc n s (v mod 2 ^ 64).
Proof.
  induction l as [|[n s v|] l IH]; cbn [load_enumerators].
  - rewrite elem_of_nil. split; [done|]. intros (n & s & v & M & _). by apply elem_of_nil in M.
  - rewrite elem_of_cons, IH. split.
    + intros [-> |(n' & s' & v' & M & ->)]; [exists n, s, v|exists n', s', v']; split; try done; by constructor.
    + intros (n' & s' & v' & M & ->). apply elem_of_cons in M as [[= -> -> ->]|M]; [by left|]. right. by exists n', s', v'.
  - rewrite IH. split; intros (n & s & v & M & ->); exists n, s, v; (split; [|done]).
    + by constructor.
    + by apply elem_of_cons in M as [?|M].
Qed.
Lemma exists_sdata l : existsb esigned (load_enumerators l) = true <-> exists n v, Enumerator n true v ∈ l.
Proof.
  rewrite existsb_exists. split.
  - intros (e & M & S). apply elem_of_list_In, loaded in M as (n & s & v & M & ->). cbn in S. subst s. by exists n, v.
  - intros (n & v & M). exists (Edesc n true (v mod 2 ^ 64)). split; [|done]. apply elem_of_list_In, loaded. by exists n, true, v.
Qed.

Lemma read_small t v : Enum.is_signed t = false -> 0 <= v < 2 ^ Enum.width t -> Enum.read_as t (v mod 2 ^ Enum.width t) = v.
Proof. intros S R. unfold Enum.read_as. rewrite S. rewrite Z.mod_mod by (destruct t; cbn; lia). by apply Z.mod_small. Qed.
Lemma read_signed t v : Enum.is_signed t = true -> - 2 ^ (Enum.width t - 1) <= v < 2 ^ (Enum.width t - 1) -> Enum.read_as t (v mod 2 ^ Enum.width t) = v.
Proof.
  intros S R. unfold Enum.read_as. rewrite S. rewrite Z.add_mod_idemp_l by (destruct t; cbn; lia).
  rewrite Z.mod_small; [lia|]. destruct t; try done; cbn in *; lia.
Qed.
Lemma effective_spec es size : size ∈ [1; 2; 4; 8] ->
  Enum.width (effective es size) = 8 * size /\ Enum.is_signed (effective es size) = existsb esigned es.
Proof.
  intros S. rewrite !elem_of_cons, elem_of_nil in S. unfold effective.
  destruct S as [-> |[-> |[-> |[-> |[]]]]]; cbn [Z.eqb Pos.eqb]; by destruct (existsb esigned es).
Qed.

(** For every enumeration the enumerators are described in their order, with their values, and an object holding the
    value of one is read as that value; every other value is read as it is if the enumeration is unsigned or
    DW_FORM_sdata occurs. *)
Theorem C93_enumeration sg size l :
  size ∈ [1; 2; 4; 8] -> c_enum sg size l ->
  let es := load_enumerators l in
  map (fun e => (ename e, evalue e)) es
    = omap (fun c => match c with Enumerator n _ v => Some (n, v mod 2 ^ 64) | OtherChild => None end) l /\
  (forall n s v, Enumerator n s v ∈ l -> Enum.read_as (effective es size) (v mod 2 ^ (8 * size)) = v) /\
  (forall x, c_range sg size x -> sg = false \/ (exists n v, Enumerator n true v ∈ l) ->
    Enum.read_as (effective es size) (x mod 2 ^ (8 * size)) = x).
Proof.
  intros S C es. destruct (effective_spec es size S) as [W G]. rewrite <- W.
  assert (8 <= 8 * size) as B by (rewrite !elem_of_cons, elem_of_nil in S; lia).
  assert (2 ^ (8 * size) = 2 * 2 ^ (8 * size - 1)) as P by (rewrite <- Z.pow_succ_r by lia; f_equal; lia).
  split; [|split].
  - subst es. clear. induction l as [|[n s v|] l IH]; cbn; [done| |done]. by rewrite <- IH.
  - intros n s v M. destruct (C n s v M) as (R & H1 & H2). destruct (existsb esigned es) eqn:X.
    + apply read_signed; [done|]. rewrite W. apply exists_sdata in X as (n' & v' & M').
      destruct (C n' true v' M') as (_ & Q & _). rewrite (Q eq_refl) in R. exact R.
    + apply read_small; [done|]. rewrite W. destruct s.
      * exfalso. assert (existsb esigned es = true) as Y by (apply exists_sdata; by exists n, v). congruence.
      * specialize (H2 eq_refl). unfold c_range in R. destruct sg; lia.
  - intros x R [-> |X].
    + destruct (existsb esigned es) eqn:X; [|by apply read_small; [|rewrite W]].
      apply exists_sdata in X as (n' & v' & M'). destruct (C n' true v' M') as (_ & Q & _). by specialize (Q eq_refl).
    + pose proof X as (n' & v' & M'). apply exists_sdata in X. fold es in X. destruct (C n' true v' M') as (_ & Q & _). rewrite (Q eq_refl) in R.
      apply read_signed; [congruence|]. rewrite W. exact R.
Qed.
Print Assumptions C93_enumeration.

Example C93_enumeration_case :
  let l := [Enumerator (lit "LOW") true (-3); OtherChild; Enumerator (lit "HIGH") false 100] in
  1 ∈ [1; 2; 4; 8] /\ c_enum true 1 l /\ effective (load_enumerators l) 1 = Enum.I8 /\
  Enum.read_as (effective (load_enumerators l) 1) 253 = -3.
Proof.
  intros l. split; [constructor|]. split; [|split; reflexivity]. intros n s v M. unfold l in M. rewrite !elem_of_cons, elem_of_nil in M.
  destruct M as [[= -> -> ->]|[?|[[= -> -> ->]|[]]]]; [| done|]; cbn; (split; [lia|done]).
Qed.

(** REFUTED for other values of a signed enumeration whose enumerators are all given without DW_FORM_sdata: a negative
    value is read as a large one. *)
Theorem C93_negative_refuted size l x :
  size ∈ [1; 2; 4; 8] -> (forall n s v, Enumerator n s v ∈ l -> s = false) -> - 2 ^ (8 * size - 1) <= x < 0 ->
  Enum.read_as (effective (load_enumerators l) size) (x mod 2 ^ (8 * size)) = x + 2 ^ (8 * size).
Proof.
  intros S C R. destruct (effective_spec (load_enumerators l) size S) as [W G].
  assert (8 <= 8 * size) as B by (rewrite !elem_of_cons, elem_of_nil in S; lia).
  assert (2 ^ (8 * size) = 2 * 2 ^ (8 * size - 1)) as P by (rewrite <- Z.pow_succ_r by lia; f_equal; lia).
  assert (existsb esigned (load_enumerators l) = false) as X.
  { destruct (existsb _ _) eqn:X; [|done]. apply exists_sdata in X as (n & v & M). by specialize (C _ _ _ M). }
  rewrite X in G. rewrite <- (Z.mod_unique_pos x (2 ^ (8 * size)) (-1) (x + 2 ^ (8 * size))) by lia.
  rewrite <- (Z.mod_small (x + 2 ^ (8 * size)) (2 ^ (8 * size))) at 1 by lia. rewrite <- W. apply read_small; [done|]. rewrite W. lia.
Qed.
Print Assumptions C93_negative_refuted.

Example C93_negative_case :
  Enum.read_as (effective (load_enumerators [Enumerator (lit "ONE") false 1]) 4) ((-1) mod 2 ^ 32) = 2 ^ 32 - 1.
Proof. reflexivity. Qed.

(** *** Members *)
Lemma strlen_zeros s after : 0 ∉ s -> Names.strlen (s ++ 0 :: after) = Some (length s).
Proof.
  induction s as [|c s IH]; intros H; [done|]. apply not_elem_of_cons in H as [H1 H].
  cbn [app Names.strlen length]. replace (c =? 0) with false by lia. by rewrite (IH H).
Qed.
Lemma suffixed_ok name suffix : 0 ∉ name -> suffixed name suffix = Some (name ++ suffix ++ [0]).
Proof.
  intros H. unfold suffixed, put_str. rewrite replicate_length. replace (_ <=? _)%nat with true by (symmetry; apply Nat.leb_le; lia).
  cbn [mbind option_bind]. rewrite take_0, drop_replicate. cbn [app].
  replace (length name + (length suffix + 1) - (0 + length name + 1))%nat with (length suffix) by lia.
  rewrite (strlen_zeros name _ H). cbn [mbind option_bind]. rewrite !app_length. cbn [length]. rewrite replicate_length.
  replace (_ <=? _)%nat with true by (symmetry; apply Nat.leb_le; lia). f_equal. rewrite take_app. f_equal. f_equal.
  rewrite drop_ge; [done|]. rewrite !app_length. cbn [length]. rewrite replicate_length. lia.
Qed.

(** Pointers to something known and arrays of one dimension, other than strings, need a member with their size. *)
Definition needs_size (l : list mtype) (dims : list Z) : Prop :=
  (exists x r, l = POINTER :: x :: r /\ x <> VOID) \/ (exists x r, l = ARRAY :: x :: r /\ x <> CHAR /\ length dims = 1%nat).
(** Unions, pointers to and arrays of unions need a member that tells which alternative is meant. *)
Definition needs_discriminator (l : list mtype) : Prop := UNION ∈ l \/ head l = Some ANON_UNION.

Definition shape (l : list mtype) (a b c : mtype) : Prop :=
  (l = [] /\ a = NONE /\ b = NONE /\ c = NONE) \/ (l = [a] /\ b = NONE /\ c = NONE) \/ (l = [a; b] /\ c = NONE) \/ l = [a; b; c].
Lemma describes_shape l s : describes l s -> (length l <= 3)%nat -> shape l (mr_type s) (mr_type_aux s) (mr_type_ptr s).
Proof.
  intros D L. unfold shape. destruct l as [|a [|b [|c [|d l]]]]; cbn in D, L; [..|lia]; destruct D as (-> & -> & ->).
  - by left.
  - right. by left.
  - right. right. by left.
  - right. right. by right.
Qed.
(** The second level after the change of [NONE] to [VOID]. *)
Definition second (a b : mtype) : mtype := if bool_decide (a = POINTER) && bool_decide (b = NONE) then VOID else b.
Lemma second_real a b : b <> NONE -> second a b = b.
Proof. intros H. unfold second. rewrite (bool_decide_eq_false_2 (b = NONE)) by done. by rewrite andb_false_r. Qed.
Lemma second_other a b : a <> POINTER -> second a b = b.
Proof. intros H. unfold second. by rewrite (bool_decide_eq_false_2 (a = POINTER)). Qed.
Lemma second_union a b : second a b = UNION <-> b = UNION.
Proof. unfold second. destruct (bool_decide_reflect (b = NONE)) as [-> |]; [|by rewrite andb_false_r]. by destruct (bool_decide (a = POINTER)). Qed.

Lemma need_iff l a b c dims : shape l a b c -> NONE ∉ l -> l <> [ARRAY] ->
  bool_decide (a = POINTER) && negb (bool_decide (second a b = VOID)) || bool_decide (a = ARRAY) && Nat.eqb (length dims) 1 && negb (bool_decide (second a b = CHAR)) = true
  <-> needs_size l dims.
Proof.
  intros S NN NA. unfold needs_size. rewrite orb_true_iff, !andb_true_iff, !negb_true_iff, !bool_decide_eq_true, !bool_decide_eq_false, Nat.eqb_eq.
  assert (G : forall x y r, y <> NONE ->
    x = POINTER /\ second x y <> VOID \/ (x = ARRAY /\ length dims = 1%nat) /\ second x y <> CHAR <->
    (exists x' r', x :: y :: r = POINTER :: x' :: r' /\ x' <> VOID) \/ (exists x' r', x :: y :: r = ARRAY :: x' :: r' /\ x' <> CHAR /\ length dims = 1%nat)).
  { intros x y r N. rewrite (second_real x y N). split.
    - intros [[-> H]|[[-> H] H']]; [left|right]; eexists _, _; done.
    - intros [(? & ? & [= -> -> ->] & H)|(? & ? & [= -> -> ->] & H & H')]; [left|right]; done. }
  destruct S as [(-> & -> & -> & ->)|[(-> & -> & ->)|[(-> & ->)| ->]]].
  - split; [intros [[? _]|[[? _] _]]; done|intros [(? & ? & ? & _)|(? & ? & ? & _)]; done].
  - split; [|intros [(? & ? & ? & _)|(? & ? & ? & _)]; done]. intros [[-> H]|[[-> _] _]]; [|by destruct NA]. by destruct H.
  - apply G. rewrite !not_elem_of_cons in NN. destruct NN as (_ & N & _). congruence.
  - apply G. rewrite !not_elem_of_cons in NN. destruct NN as (_ & N & _). congruence.
Qed.
Lemma union_iff l a b c : shape l a b c ->
  bool_decide (a = UNION) || bool_decide (second a b = UNION) || bool_decide (c = UNION) || bool_decide (a = ANON_UNION) = true <-> needs_discriminator l.
Proof.
  intros S. unfold needs_discriminator. rewrite !orb_true_iff, !bool_decide_eq_true, second_union.
  destruct S as [(-> & -> & -> & ->)|[(-> & -> & ->)|[(-> & ->)| ->]]]; cbn [head]; rewrite ?elem_of_cons, elem_of_nil.
  - split; [intros [[[?|?]|?]|?]|intros [?|?]]; done.
  - split; [intros [[[?|?]|?]|?]|intros [[?|?]|[= ?]]]; try done; auto. right. congruence.
  - split; [intros [[[?|?]|?]|?]|intros [[?|[?|?]]|[= ?]]]; try done; auto. right. congruence.
  - split; [intros [[[?|?]|?]|?]|intros [[?|[?|[?|?]]]|[= ?]]]; try done; auto 6. right. congruence.
Qed.
Lemma second_shape l a b c s : shape l a b c -> NONE ∉ l -> mr_type s = a -> mr_type_aux s = second a b -> mr_type_ptr s = c ->
  describes (if decide (l = [POINTER]) then [POINTER; VOID] else l) s.
Proof.
  intros S NN Ea Eb Ec. destruct (decide (l = [POINTER])) as [-> |NP].
  - destruct S as [(? & _)|[([= <-] & -> & ->)|[(? & _)|?]]]; try done.
  - destruct S as [(-> & -> & -> & ->)|[(-> & -> & ->)|[(-> & ->)| ->]]]; cbn [describes].
    + done.
    + split; [done|]. split; [|done]. rewrite Eb. apply second_other. congruence.
    + split; [done|]. split; [|done]. rewrite Eb. apply second_real. rewrite !not_elem_of_cons in NN. destruct NN as (_ & N & _). congruence.
    + split; [done|]. split; [|done]. rewrite Eb. apply second_real. rewrite !not_elem_of_cons in NN. destruct NN as (_ & N & _). congruence.
Qed.
Lemma chars_iff l a b c (dims : list Z) : shape l a b c ->
  bool_decide (a = ARRAY) && Nat.eqb (length dims) 1 && bool_decide (second a b = CHAR) = true <-> exists r, l = ARRAY :: CHAR :: r /\ length dims = 1%nat.
Proof.
  intros S. rewrite !andb_true_iff, !bool_decide_eq_true, Nat.eqb_eq. split.
  - intros [[-> K] H]. rewrite second_other in H by done. subst b.
    destruct S as [(_ & ? & _)|[(_ & ? & _)|[(-> & ->)| ->]]]; try done; by eexists.
  - intros (r & -> & K). destruct S as [(? & _)|[(? & _)|[([= <- <- ->] & _)|[= <- <- ->]]]]; try done.
Qed.

(** Every member of at most three levels gets the strings it needs and no others; names and places remain. *)
Theorem C93_members f l :
  describes l (fstype f) -> (length l <= 3)%nat -> NONE ∉ l -> l <> [ARRAY] -> 0 ∉ fname f ->
  exists c, process_fd f = Some c /\
    fname (member_fd c) = fname f /\ unnamed (member_fd c) = unnamed f /\ offset (member_fd c) = offset f /\
    width (member_fd c) = width f /\ shift (member_fd c) = shift f /\
    type (fstype (member_fd c)) = type (fstype f) /\ dim (fstype (member_fd c)) = dim (fstype f) /\
    describes (if decide (l = [POINTER]) then [POINTER; VOID] else l) (fstype (member_fd c)) /\
    (char_array c = true <-> exists r, l = ARRAY :: CHAR :: r /\ length (dim (fstype f)) = 1%nat) /\
    (needs_size l (dim (fstype f)) -> res c = Some (fname f ++ lit "_size" ++ [0])) /\
    (~ needs_size l (dim (fstype f)) -> res c = None) /\
    (needs_discriminator l -> meta c = Some (fname f ++ lit "_discriminator" ++ [0])) /\
    (~ needs_discriminator l -> meta c = None).
Proof.
  intros D L NN NA NZ. pose proof (describes_shape _ _ D L) as S. set (a := mr_type (fstype f)) in *. set (b := mr_type_aux (fstype f)) in *. set (c := mr_type_ptr (fstype f)) in *.
  pose proof (need_iff l a b c (dim (fstype f)) S NN NA) as N. pose proof (union_iff l a b c S) as U.
  unfold process_fd. fold a b c. fold (second a b). rewrite !(suffixed_ok _ _ NZ). cbn [mbind option_bind].
  assert (H0 : forall (b : bool) (x : list Z), (if b then Some (Some x) else Some None) = Some (if b then Some x else None)) by by intros [].
  rewrite !H0. cbn [mbind option_bind]. eexists. split; [done|]. cbn [member_fd char_array res meta fname unnamed offset width shift fstype type dim].
  do 7 (split; [done|]). split; [|split; [|split; [|split; [|split]]]].
  - by apply (second_shape l a b c).
  - by apply (chars_iff l a b c).
  - intros H. apply N in H. by rewrite H.
  - intros H. destruct (_ || _ && _ && _) in N |- *; [|done]. exfalso. apply H. by apply N.
  - intros H. apply U in H. by rewrite H.
  - intros H. destruct (_ || bool_decide (a = ANON_UNION)) in U |- *; [|done]. exfalso. apply H. by apply U.
Qed.
Print Assumptions C93_members.

(** A pointer to a union. *)
Example C93_members_case :
  let f := Fd (lit "v") false 8 0 0 (Stype POINTER UNION NONE (Some (lit "u_t")) 8 []) in
  describes [POINTER; UNION] (fstype f) /\ 0 ∉ fname f /\ needs_size [POINTER; UNION] [] /\ needs_discriminator [POINTER; UNION] /\
  fmap (fun c => (char_array c, res c, meta c)) (process_fd f) = Some (false, Some (lit "v_size" ++ [0]), Some (lit "v_discriminator" ++ [0])).
Proof.
  intros f. split; [done|]. split; [by apply (bool_decide_unpack _); vm_compute|]. split; [left; by eexists _, _|]. split; [left; right; left|]. reflexivity.
Qed.

Lemma times_mod dims : forall z, 0 <= z < 2 ^ 32 -> times z dims = (z * prod dims) mod 2 ^ 32.
Proof.
  induction dims as [|n dims IH]; intros z R; cbn [times prod foldr].
  - rewrite Z.mul_1_r. symmetry. by apply Z.mod_small.
  - rewrite IH by (apply Z.mod_pos_bound; lia). fold (prod dims). rewrite Z.mul_mod_idemp_l by lia. f_equal. lia.
Qed.
Lemma prod_app a b : prod (a ++ b) = prod a * prod b.
Proof. induction a as [|x a IH]; cbn [app prod foldr]; [unfold prod; lia|]. fold (prod (a ++ b)) (prod a). rewrite IH. lia. Qed.
Lemma prod_kept z ns : (z * prod (kept ns)) mod 2 ^ 32 = (z * prod ns) mod 2 ^ 32.
Proof.
  unfold kept. destruct (decide _); [done|]. rewrite prod_app. unfold prod at 2. cbn [foldr]. rewrite Z.mul_1_r, !Z.mul_assoc.
  rewrite Z.mul_mod_idemp_r by lia. f_equal. rewrite <- Z.mul_assoc, <- prod_app, take_drop. done.
Qed.

(** The size of a member that is an array of any number of dimensions is that of the element times all counts, if
    it is below 2^32; of other members it is that of the type. *)
Theorem C93_size dec sign g ty idx m t fuel z :
  repr sign g (type_ref (mdie m)) t -> wf false t -> (depth t <= fuel)%nat ->
  (1 <= length (levels t) <= 3)%nat -> bit_size m = None -> csize t = Some z -> 0 <= z < 2 ^ 32 ->
  0 ∉ default (ty ++ lit "_" ++ dec idx) (dname (mdie m)) ->
  exists f g' c, load_member fuel dec sign g ty idx m = Some (f, g') /\ process_fd f = Some c /\
    (head (levels t) <> Some ARRAY -> size (fstype (member_fd c)) = z) /\
    (forall ns, head (levels t) = Some ARRAY -> arrays t = [ns] -> z * prod ns < 2 ^ 32 -> 0 <= prod ns -> size (fstype (member_fd c)) = z * prod ns).
Proof.
  intros R W Df Lv Bs Cz Rz NZ.
  destruct (C89_members dec sign g ty idx m t fuel (8 * default 0 (location m))) as (f & g' & E & D & _ & _ & _ & Hs & Hd & Hn).
  { done. } { done. } { done. } { rewrite Bs. lia. } { by rewrite Bs. } { by rewrite Bs. }
  rewrite Bs in D.
  assert (0 ∉ fname f) as NZ'. { destruct (dname (mdie m)); destruct Hn as (-> & _); exact NZ. }
  specialize (Hs z Cz). exists f, g'. unfold process_fd. rewrite !(suffixed_ok _ _ NZ'). cbn [mbind option_bind].
  assert (H0 : forall (b : bool) (x : list Z), (if b then Some (Some x) else Some None) = Some (if b then Some x else None)) by by intros [].
  rewrite !H0. cbn [mbind option_bind]. eexists. split; [done|]. split; [done|]. cbn [member_fd fstype size].
  assert (mr_type (fstype f) = default NONE (head (levels t))) as ->.
  { destruct (levels t) as [|a [|b [|c [|d l]]]]; cbn in D, Lv; try lia; by destruct D as (-> & _). }
  split.
  - intros H. rewrite bool_decide_eq_false_2; [done|]. intros K. apply H. destruct (head (levels t)); cbn in K; by subst.
  - intros ns H A B P. rewrite H. cbn [default]. rewrite bool_decide_eq_true_2 by done. rewrite Hs, (Hd ns A). rewrite times_mod by done.
    rewrite prod_kept. apply Z.mod_small. nia.
Qed.
Print Assumptions C93_size.

(** [char * names[2][3]], as in [C89_case]. *)
Example C93_size_case :
  let g := [int_; Die 2 T_base (Some (lit "char")) (Some 1) None false []; Die 3 T_pointer None (Some 8) (Some 2) false [];
            Die 4 T_array None None (Some 3) false [(None, Some 1); (None, Some 2)]] in
  let t := CArray [2; 3] (CPtr (CBase (lit "char") CHAR 1)) in
  let m := Member (to 4) (Some 16) None None None in
  repr signs g (type_ref (mdie m)) t /\ wf false t /\ (1 <= length (levels t) <= 3)%nat /\ csize t = Some 8 /\ head (levels t) = Some ARRAY /\
  arrays t = [[2; 3]] /\
  exists f c, load_member 3 digit signs g (lit "t") 0 m = Some (f, g) /\ process_fd f = Some c /\ size (fstype (member_fd c)) = 48.
Proof.
  cbn zeta. split.
  { eapply r_array; [reflexivity|reflexivity| |]. { repeat constructor; cbn; try lia; left; done. }
    eapply r_ptr; [reflexivity|reflexivity|]. eapply r_base; reflexivity. }
  do 5 (split; [cbn; try done; try lia|]). eexists _, _. split; [vm_compute; reflexivity|]. split; vm_compute; reflexivity.
Qed.

(** REFUTED that the size of every array is right: larger ones lose the higher bits, and an array whose elements are
    arrays (by a typedef) gets the size of one element. *)
Theorem C93_size_refuted :
  (forall s : stype, forall f c, fstype f = s -> mr_type s = ARRAY -> 0 <= size s < 2 ^ 32 -> 2 ^ 32 <= size s * prod (dim s) ->
    process_fd f = Some c -> size (fstype (member_fd c)) <> size s * prod (dim s)) /\
  (forall n k, 0 < n < 2 ^ 32 -> 0 < k -> 4 * k < 2 ^ 32 ->
    let g := [int_; Die 2 T_array None None (Some 1) false [(None, Some (k - 1))]; Die 3 T_typedef (Some (lit "row_t")) None (Some 2) false [];
              Die 4 T_array None None (Some 3) false [(None, Some (n - 1))]] in
    repr signs g (Some 4) (CArray [n] (CTypedef (lit "row_t") (CArray [k] (CBase (lit "int") (BASIC 10) 4)))) /\
    exists f c, load_member 4 digit signs g (lit "t") 0 (Member (to 4) None None None None) = Some (f, g) /\ process_fd f = Some c /\
      size (fstype (member_fd c)) = 4 * k).
Proof.
  split.
  - intros s f c <- A R B H. unfold process_fd in H. cbv zeta in H. rewrite A in H.
    apply bind_Some in H as (r & _ & H). apply bind_Some in H as (r' & _ & H). injection H as <-. cbn [member_fd fstype size].
    rewrite times_mod by done. pose proof (Z.mod_pos_bound (size (fstype f) * prod (dim (fstype f))) (2 ^ 32)). lia.
  - intros n k Rn Rk Rk' g. split.
    + eapply r_array; [reflexivity|reflexivity| |]. { constructor; [|constructor]. split; [lia|]. by left. } eapply r_typedef; [reflexivity..|].
      eapply r_array; [reflexivity|reflexivity| |]. { constructor; [|constructor]. split; [lia|]. by left. } eapply r_base; reflexivity.
    + assert (E : load_member 4 digit signs g (lit "t") 0 (Member (to 4) None None None None)
        = Some (Fd (lit "f") false 0 0 0 (Stype ARRAY ARRAY (BASIC 10) (Some (lit "row_t")) 4 [dimension (None, Some (k - 1))]), g)).
      { reflexivity. }
      rewrite (dimension_ok _ k) in E by (split; [lia|by left]). eexists _, _. split; [exact E|]. split; [reflexivity|].
      cbn [member_fd fstype size]. rewrite bool_decide_eq_true_2 by done. rewrite times_mod by lia. unfold prod. cbn [dim foldr size].
      rewrite Z.mod_small by lia. lia.
Qed.
Print Assumptions C93_size_refuted.

(** REFUTED that every member with a union in it gets a discriminator: not arrays of, or pointers to, unions without
    a name. *)
Theorem C93_discriminator_refuted f :
  0 ∉ fname f -> describes [ARRAY; ANON_UNION] (fstype f) \/ describes [POINTER; ANON_UNION] (fstype f) ->
  exists c, process_fd f = Some c /\ meta c = None.
Proof.
  intros NZ D. assert (exists x, (x = ARRAY \/ x = POINTER) /\ describes [x; ANON_UNION] (fstype f)) as (x & X & Dx) by (destruct D; eauto).
  destruct (C93_members f [x; ANON_UNION] Dx) as (c & E & H); [cbn; lia| |done|done|].
  { rewrite !not_elem_of_cons, elem_of_nil. split; [|split]; [|done|by intros []]. destruct X as [-> | ->]; done. }
  exists c. split; [done|]. do 11 destruct H as [_ H]. apply H. unfold needs_discriminator. rewrite !elem_of_cons, elem_of_nil. cbn [head].
  destruct X as [-> | ->]; intros [[?|[?|[]]]|?]; done.
Qed.
Print Assumptions C93_discriminator_refuted.
Example C93_discriminator_case :
  let f := Fd (lit "v") false 0 0 0 (Stype ARRAY ANON_UNION NONE (Some (lit "mr_type_anonymous_7_t")) 8 [4]) in
  describes [ARRAY; ANON_UNION] (fstype f) /\ fmap meta (process_fd f) = Some None.
Proof. split; reflexivity || done. Qed.
