(** C92: the types of objects found from debug information (src/mr_dwarf.c:623-661, 1102-1181, 1231-1272,
    src/metaresc.h:1036-1042, src/metaresc.c:2017-2028). *)
From Coq Require Import Ascii String.
From stdpp Require Import list.
From Verif Require Import Base Dwarf DwarfVar P_Dwarf.
From Verif Require TypeName.
Local Open Scope Z_scope.

(** *** The statements' own vocabulary *)
(** A type that has a name and is not built in. *)
Inductive named (sign : list Z -> Z -> option mtype) : cty -> list Z -> Prop :=
| n_typedef n t : named sign (CTypedef n t) n
| n_agg k o n sz : (forall z, sz = Some z -> sign n z = None) -> named sign (CAgg k o (Some n) sz) n.
(** Arrays, of arrays, of a type. *)
Inductive arrays_of (N : cty) : cty -> Prop :=
| a_self : arrays_of N N
| a_array ns t : arrays_of N t -> arrays_of N (CArray ns t).
(** [T] is the type of a variable declared as an array of no elements of the type of an object: [n] is the name of the
    type that the object points to, or of the elements if it is an array. *)
Definition object_type (sign : list Z -> Z -> option mtype) (T : cty) (n : list Z) : Prop :=
  exists N, named sign N n /\ (arrays_of N T \/ exists k, T = CArray [k] (CPtr N)).
(** Entries that stand for a type; arrays of no elements have no count with some compilers. *)
Inductive stands (sign : list Z -> Z -> option mtype) (g : list die) : option Z -> cty -> Prop :=
| s_void : stands sign g None CVoid
| s_base o d n m sz : find_die g o = Some d -> tag d = T_base -> dname d = Some n -> byte_size d = Some sz -> sign n sz = Some m ->
    stands sign g (Some o) (CBase n m sz)
| s_func o d : find_die g o = Some d -> tag d = T_subroutine -> stands sign g (Some o) CFunc
| s_agg o d k : find_die g o = Some d -> tag d = agg_tag k -> stands sign g (Some o) (CAgg k o (dname d) (byte_size d))
| s_qual o d t : find_die g o = Some d -> tag d = T_const \/ tag d = T_volatile -> stands sign g (type_ref d) t -> stands sign g (Some o) (CQual t)
| s_typedef o d n t : find_die g o = Some d -> tag d = T_typedef -> dname d = Some n -> byte_size d = None -> stands sign g (type_ref d) t ->
    stands sign g (Some o) (CTypedef n t)
| s_array o d ns t : find_die g o = Some d -> tag d = T_array -> length (subs d) = length ns -> stands sign g (type_ref d) t ->
    stands sign g (Some o) (CArray ns t)
| s_ptr o d t : find_die g o = Some d -> tag d = T_pointer -> stands sign g (type_ref d) t -> stands sign g (Some o) (CPtr t).
(** Arrays have dimensions. *)
Fixpoint full (t : cty) : Prop :=
  match t with CArray ns t => ns <> [] /\ full t | CQual t | CTypedef _ t | CPtr t => full t | _ => True end.
(** Qualifiers and functions have no names. *)
Definition nameless (g : list die) : Prop :=
  forall d, d ∈ g -> tag d = T_const \/ tag d = T_volatile \/ tag d = T_subroutine -> dname d = None.
(** The variable [d] is in the tree, in the unit [f']; [f] is the unit around the tree. *)
Inductive inside : option (list Z) -> tree -> option (list Z) -> die -> Prop :=
| in_here f d ch : inside f (Tree (EVar d) ch) f d
| in_unit f n ch t f' d : t ∈ ch -> inside (Some n) t f' d -> inside f (Tree (EUnit (Some n)) ch) f' d
| in_child f e ch t f' d : (forall n, e <> EUnit n) -> t ∈ ch -> inside f t f' d -> inside f (Tree e ch) f' d.
(** The variable is named as those of MR_OBJ_TYPE_DWARF. *)
Definition object_var (name : list Z) : Prop := exists k, name = lit "mr_ptr_detect_type_var_" ++ k.

(** *** The tree *)
Fixpoint tree_rect' (P : tree -> Prop) (H : forall e ch, Forall P ch -> P (Tree e ch)) (t : tree) : P t :=
  match t with
  | Tree e ch => H e ch ((fix go l : Forall P l := match l with [] => List.Forall_nil P | t :: l => @List.Forall_cons _ P t l (tree_rect' P H t) (go l) end) ch)
  end.
Definition walks (file : option (list Z)) := fix walks (l : list tree) : option (list die * list var) :=
  match l with
  | [] => Some ([], [])
  | t :: l => '(ds, vs) ← walk file t; '(ds', vs') ← walks l; Some (ds ++ ds', vs ++ vs')
  end.
Definition entered (file : option (list Z)) (e : entry) : option (option (list Z) * list die * list var) :=
  match e with
  | EUnit None => None
  | EUnit (Some n) => Some (Some n, [], [])
  | EVar d => Some (file, [], [Var file d])
  | EType d => Some (file, [d], [])
  | EOther => Some (file, [], [])
  end.
Lemma walk_eq file e ch : walk file (Tree e ch) =
  '(file, ds0, vs0) ← entered file e; '(ds, vs) ← walks file ch; Some (ds0 ++ ds, vs0 ++ vs).
Proof. destruct e as [[n|]|v|v|]; reflexivity. Qed.
Lemma walks_vars file ch : Forall (fun t => forall f ds vs, walk f t = Some (ds, vs) -> forall f' d, Var f' d ∈ vs <-> inside f t f' d) ch ->
  forall ds vs, walks file ch = Some (ds, vs) -> forall f' d, Var f' d ∈ vs <-> exists t, t ∈ ch /\ inside file t f' d.
Proof.
  induction 1 as [|t ch Ht _ IH]; intros ds vs W f' d.
  - injection W as <- <-. split; [intros X; by apply elem_of_nil in X|]. intros (t & X & _). by apply elem_of_nil in X.
  - change (walks file (t :: ch)) with ('(ds, vs) ← walk file t; '(ds', vs') ← walks file ch; Some (ds ++ ds', vs ++ vs')) in W.
    destruct (walk file t) as [[ds1 vs1]|] eqn:E1; [|done]. cbn [mbind option_bind] in W.
    destruct (walks file ch) as [[ds2 vs2]|] eqn:E2; [|done]. cbn [mbind option_bind] in W. injection W as <- <-.
    rewrite elem_of_app, (Ht _ _ _ E1), (IH _ _ eq_refl). split.
    + intros [X|(t' & M & X)]; [exists t|exists t']; split; try done; by constructor.
    + intros (t' & M & X). apply elem_of_cons in M as [-> |M]; [by left|]. right. by exists t'.
Qed.
Lemma walk_vars t : forall f ds vs, walk f t = Some (ds, vs) -> forall f' d, Var f' d ∈ vs <-> inside f t f' d.
Proof.
  induction t as [e ch IH] using tree_rect'. intros f ds vs W f' d. rewrite walk_eq in W.
  destruct (entered f e) as [[[file ds0] vs0]|] eqn:E0; [|done]. cbn [mbind option_bind] in W.
  destruct (walks file ch) as [[ds2 vs2]|] eqn:E2; [|done]. cbn [mbind option_bind] in W. injection W as <- <-.
  rewrite elem_of_app, (walks_vars file ch IH _ _ E2 f' d).
  destruct e as [[n|]|v|v|]; cbn in E0; try done; injection E0 as <- <- <-.
  - split.
    + intros [X|(t & M & X)]; [by apply elem_of_nil in X|]. by eapply in_unit.
    + intros X. right. inversion X as [|? ? ? t ? ? M Y|? ? ? ? ? ? N]; subst; [by exists t|]. by destruct (N (Some n)).
  - split.
    + intros [X|(t & M & X)]; [|by eapply in_child].
      apply elem_of_list_singleton in X. injection X as -> ->. constructor.
    + intros X. inversion X as [| |? ? ? t ? ? N M Y]; subst; [left; constructor|]. right. by exists t.
  - split.
    + intros [X|(t & M & X)]; [by apply elem_of_nil in X|]. by eapply in_child.
    + intros X. inversion X as [| |? ? ? t ? ? N M Y]; subst. right. by exists t.
  - split.
    + intros [X|(t & M & X)]; [by apply elem_of_nil in X|]. by eapply in_child.
    + intros X. inversion X as [| |? ? ? t ? ? N M Y]; subst. right. by exists t.
Qed.

(** *** Pointers and arrays *)
Fixpoint peel (t : cty) : Z * Z * cty :=
  match t with
  | CPtr t => let '(p, a, N) := peel t in (p + 1, a, N)
  | CArray ns t => let '(p, a, N) := peel t in (p, a + Z.of_nat (length ns), N)
  | _ => (0, 0, t)
  end.
Definition dptr (d : die) : Z := match tag d with T_pointer => 1 | _ => 0 end.
Definition darr (d : die) : Z := match tag d with T_array => Z.of_nat (length (subs d)) | _ => 0 end.

Lemma stands_inv sign g r T : stands sign g r T -> T <> CVoid ->
  exists o d, r = Some o /\ find_die g o = Some d /\
    match T with
    | CVoid => False
    | CPtr T => tag d = T_pointer /\ stands sign g (type_ref d) T
    | CArray ns T => tag d = T_array /\ length (subs d) = length ns /\ stands sign g (type_ref d) T
    | CBase n m sz => tag d = T_base /\ dname d = Some n /\ byte_size d = Some sz /\ sign n sz = Some m
    | CFunc => tag d = T_subroutine
    | CAgg k _ n sz => tag d = agg_tag k /\ dname d = n /\ byte_size d = sz
    | CQual _ => tag d = T_const \/ tag d = T_volatile
    | CTypedef n _ => tag d = T_typedef /\ dname d = Some n /\ byte_size d = None
    end.
Proof.
  intros R NV. destruct R; [done|..]; do 2 eexists; repeat split; try eassumption.
Qed.

(** The loop without the counts of the entry it starts from. *)
Lemma var_loop_ok sign g T : forall d fuel p a, stands sign g (type_ref d) T -> (depth T < fuel)%nat ->
  let '(pp, aa, N) := peel T in
  (N = CVoid /\ var_loop fuel g d p a = Some None) \/
  (N <> CVoid /\ exists o d', find_die g o = Some d' /\ stands sign g (Some o) N /\
    var_loop fuel g d p a = Some (Some (d', p + dptr d + pp, a + darr d + aa))).
Proof.
  assert (forall T d fuel p a, stands sign g (type_ref d) T -> (0 < fuel)%nat -> peel T = (0, 0, T) -> T <> CVoid ->
    (forall t, T <> CPtr t) -> (forall ns t, T <> CArray ns t) ->
    exists o d', find_die g o = Some d' /\ stands sign g (Some o) T /\
      var_loop fuel g d p a = Some (Some (d', p + dptr d + 0, a + darr d + 0))) as Leaf.
  { intros T' d fuel p a R F _ NV NP NA. destruct fuel as [|fuel]; [lia|].
    destruct (stands_inv _ _ _ _ R NV) as (o & d' & E & FD & K). exists o, d'. rewrite E in R. split; [done|]. split; [done|].
    cbn [var_loop]. rewrite E, FD. cbn [mbind option_bind].
    assert (tag d' <> T_pointer /\ tag d' <> T_array) as [TP TA].
    { destruct T' as [| | |k ? ? ?| | |ns t|t]; try done.
      - destruct K as (-> & _). done.
      - by rewrite K.
      - destruct K as (-> & _). by destruct k.
      - by destruct K as [-> | ->].
      - destruct K as (-> & _). done.
      - by destruct (NA ns t).
      - by destruct (NP t). }
    replace (match tag d with T_pointer => p + 1 | _ => p end) with (p + dptr d + 0) by (unfold dptr; destruct (tag d); lia).
    replace (match tag d with T_array => a + Z.of_nat (length (subs d)) | _ => a end) with (a + darr d + 0) by (unfold darr; destruct (tag d); lia).
    by destruct (tag d'). }
  induction T as [|n m sz| |k o n sz|T IH|n T IH|ns T IH|T IH]; intros d fuel p a R F; cbn [peel].
  - left. split; [done|]. destruct fuel as [|fuel]; [lia|]. cbn [var_loop]. inversion R as [E| | | | | | |]. done.
  - right. split; [done|]. by apply Leaf; try done; lia.
  - right. split; [done|]. by apply Leaf; try done; lia.
  - right. split; [done|]. by apply Leaf; try done; lia.
  - right. split; [done|]. by apply Leaf; try done; lia.
  - right. split; [done|]. by apply Leaf; try done; lia.
  - cbn [depth] in F. destruct fuel as [|fuel]; [lia|].
    destruct (stands_inv _ _ _ _ R ltac:(done)) as (o & d' & E & FD & T1 & L & R').
    cbn [var_loop]. rewrite E, FD. cbn [mbind option_bind]. rewrite T1.
    replace (match tag d with T_pointer => p + 1 | _ => p end) with (p + dptr d) by (unfold dptr; destruct (tag d); lia).
    replace (match tag d with T_array => a + Z.of_nat (length (subs d)) | _ => a end) with (a + darr d) by (unfold darr; destruct (tag d); lia).
    specialize (IH d' fuel (p + dptr d) (a + darr d) R' ltac:(lia)).
    destruct (peel T) as [[pp aa] N]. destruct IH as [IH|(NV & o' & d'' & F' & RN & IH)]; [by left|]. right. split; [done|].
    exists o', d''. split; [done|]. split; [done|]. rewrite IH. unfold dptr at 2, darr at 2. rewrite T1, L. do 2 f_equal. f_equal; [f_equal; lia|lia].
  - cbn [depth] in F. destruct fuel as [|fuel]; [lia|].
    destruct (stands_inv _ _ _ _ R ltac:(done)) as (o & d' & E & FD & T1 & R').
    cbn [var_loop]. rewrite E, FD. cbn [mbind option_bind]. rewrite T1.
    replace (match tag d with T_pointer => p + 1 | _ => p end) with (p + dptr d) by (unfold dptr; destruct (tag d); lia).
    replace (match tag d with T_array => a + Z.of_nat (length (subs d)) | _ => a end) with (a + darr d) by (unfold darr; destruct (tag d); lia).
    specialize (IH d' fuel (p + dptr d) (a + darr d) R' ltac:(lia)).
    destruct (peel T) as [[pp aa] N]. destruct IH as [IH|(NV & o' & d'' & F' & RN & IH)]; [by left|]. right. split; [done|].
    exists o', d''. split; [done|]. split; [done|]. rewrite IH. unfold dptr at 2, darr at 2. rewrite T1. do 2 f_equal. f_equal; [f_equal; lia|lia].
Qed.

Lemma peel_nonneg T : let '(p, a, N) := peel T in 0 <= p /\ 0 <= a /\ (forall t, N <> CPtr t) /\ (forall ns t, N <> CArray ns t).
Proof. induction T; cbn [peel]; try (destruct (peel T) as [[p a] N]); repeat split; try done; try lia; apply IHT. Qed.
Lemma peel_arrays T : forall p a N, peel T = (p, a, N) -> p = 0 -> arrays_of N T.
Proof.
  induction T as [| | | | | |ns T IH|T IH]; intros p a N E P; cbn [peel] in E; try (injection E as <- <- <-; constructor).
  - destruct (peel T) as [[p' a'] N'] eqn:E'. injection E as <- <- <-. constructor. by eapply IH.
  - pose proof (peel_nonneg T) as H. destruct (peel T) as [[p' a'] N'] eqn:E'. injection E as <- <- <-. lia.
Qed.
Lemma arrays_peel N T : arrays_of N T -> (forall t, N <> CPtr t) -> (forall ns t, N <> CArray ns t) ->
  exists a, peel T = (0, a, N).
Proof.
  induction 1 as [|ns t A IH]; intros NP NA.
  - exists 0. destruct N; try done; [by destruct (NA ns N)|by destruct (NP N)].
  - destruct (IH NP NA) as (a & E). cbn [peel]. rewrite E. by eexists.
Qed.
Lemma peel_none T : full T -> forall p N, peel T = (p, 0, N) -> p = 0 -> T = N.
Proof.
  destruct T as [| | | | | |ns T|T]; cbn [peel full]; intros F p N E P; try (by injection E as <- <-).
  - pose proof (peel_nonneg T) as H. destruct F as [NE _]. destruct (peel T) as [[p' a'] N'] eqn:E'. injection E as <- E <-.
    destruct ns; [done|]. cbn [length] in E. lia.
  - pose proof (peel_nonneg T) as H. destruct (peel T) as [[p' a'] N'] eqn:E'. injection E as E _ _. lia.
Qed.

(** The condition of create_var is that of [object_type]. *)
Lemma object_type_iff sign T k ms U n : T = CArray (k :: ms) U -> full T -> forall p a N, peel T = (p, a, N) ->
  object_type sign T n <-> named sign N n /\ (p = 0 \/ (p = 1 /\ a = 1)).
Proof.
  intros ET F p a N E. unfold object_type. split.
  - intros (N' & H & [A|[k' A]]).
    + destruct (arrays_peel N' T A) as (a' & E'); [by destruct H|by destruct H|]. rewrite E in E'. injection E' as -> -> ->. split; [done|by left].
    + rewrite A in E. cbn [peel] in E.
      assert (peel N' = (0, 0, N')) as E1 by (by destruct H). rewrite E1 in E. injection E as <- <- <-. split; [done|]. right. cbn. lia.
  - intros (H & [-> |[-> ->]]); exists N; (split; [done|]).
    + left. by eapply peel_arrays.
    + right. subst T. cbn [peel] in E. destruct F as [_ F].
      pose proof (peel_nonneg U) as NU. destruct (peel U) as [[p' a'] N'] eqn:E'. injection E as -> E ->. cbn [length] in E.
      destruct ms; cbn [length] in E; [|lia]. exists k. f_equal. assert (a' = 0) as -> by lia.
      destruct U as [| | | | | |ns U|U]; cbn [peel] in E'; try done.
      * pose proof (peel_nonneg U) as NU'. destruct (peel U) as [[p'' a''] N''] eqn:E''. injection E' as -> E' ->. destruct F as [NE _].
        destruct ns; [done|]. cbn [length] in E'. lia.
      * destruct (peel U) as [[p'' a''] N''] eqn:E''. injection E' as E' -> ->. f_equal. cbn [full] in F. apply (peel_none U F p''); [done|lia].
Qed.

Lemma is_prefix_iff kw s : TypeName.is_prefix kw s = true <-> exists k, s = kw ++ k.
Proof.
  revert s. induction kw as [|c kw IH]; intros s; cbn [TypeName.is_prefix].
  - split; [|done]. intros _. by exists s.
  - destruct s as [|x s]; [split; [done|by intros (k & ?)]|].
    rewrite andb_true_iff, IH, Z.eqb_eq. split.
    + intros [-> (k & ->)]. by exists k.
    + intros (k & E). injection E as -> ->. split; [done|by exists k].
Qed.

Lemma named_fun sign N n n' : named sign N n -> named sign N n' -> n = n'.
Proof. intros H1 H2. destruct H1; inversion H2; by subst. Qed.

(** One variable. *)
Lemma create_var_ok fuel sign g tab d file name T k ms U :
  nameless g -> dname d = Some name -> object_var name -> tag d = T_other -> stands sign g (type_ref d) T -> T = CArray (k :: ms) U -> full T ->
  (depth T < fuel)%nat -> find_var tab file name = None ->
  exists r, create_var fuel sign g tab (Var (Some file) d) = Some (match r with Some n => tab ++ [(file, name, n)] | None => tab end) /\
    forall n, r = Some n <-> object_type sign T n.
Proof.
  intros NL EN OV TG R ET F L NF. unfold create_var. cbn [vdie vfile]. rewrite EN.
  rewrite (proj2 (is_prefix_iff var_prefix name) OV). cbn [negb mbind option_bind]. rewrite NF.
  pose proof (var_loop_ok sign g T d fuel 0 0 R L) as V. pose proof (object_type_iff sign T k ms U) as OT.
  destruct (peel T) as [[p a] N] eqn:E. unfold dptr, darr in V. rewrite TG in V. change (0 + 0 + p) with p in V. change (0 + 0 + a) with a in V.
  assert (forall n, object_type sign T n <-> named sign N n /\ (p = 0 \/ (p = 1 /\ a = 1))) as OT' by (intros n; by apply OT). clear OT.
  destruct V as [[-> ->]|(NV & o & d' & FD & RN & ->)]; cbn [mbind option_bind].
  { exists None. split; [done|]. intros n. rewrite OT'. split; [done|]. intros [H _]. inversion H. }
  destruct (((p =? 1) && (a =? 1)) || (p =? 0)) eqn:C; cbn [negb].
  2:{ exists None. split; [done|]. intros n. rewrite OT'. split; [done|]. intros [_ H]. lia. }
  assert (p = 0 \/ (p = 1 /\ a = 1)) as C' by lia.
  pose proof (peel_nonneg T) as PN. rewrite E in PN. destruct PN as (_ & _ & NP & NA).
  destruct (stands_inv _ _ _ _ RN NV) as (o' & d'' & E' & FD' & K). injection E' as <-. rewrite FD in FD'. injection FD' as <-.
  assert (d' ∈ g) as IN. { unfold find_die in FD. apply List.find_some in FD as [FD _]. by apply elem_of_list_In. }
  destruct N as [|n m sz| |kk oo n sz|N|n N|ns N|N]; try done.
  - destruct K as (_ & -> & -> & ->). exists None. split; [done|]. intros n'. rewrite OT'. split; [done|]. intros [H _]. inversion H.
  - rewrite (NL d' IN) by tauto. exists None. split; [done|]. intros n'. rewrite OT'. split; [done|]. intros [H _]. inversion H.
  - destruct K as (_ & -> & ->). destruct n as [n|].
    2:{ exists None. split; [done|]. intros n'. rewrite OT'. split; [done|]. intros [H _]. inversion H. }
    destruct sz as [sz|].
    + destruct (sign n sz) as [m|] eqn:Sg.
      * exists None. split; [done|]. intros n'. rewrite OT'. split; [done|]. intros [H _]. inversion H as [|? ? ? ? Q]; subst. by rewrite (Q sz eq_refl) in Sg.
      * exists (Some n). split; [done|]. intros n'. rewrite OT'. split.
        -- intros [= <-]. split; [|done]. constructor. by intros z [= <-].
        -- intros [H _]. by inversion H.
    + exists (Some n). split; [done|]. intros n'. rewrite OT'. split.
      -- intros [= <-]. split; [|done]. by constructor.
      -- intros [H _]. by inversion H.
  - rewrite (NL d' IN) by tauto. exists None. split; [done|]. intros n'. rewrite OT'. split; [done|]. intros [H _]. inversion H.
  - destruct K as (_ & -> & ->). exists (Some n). split; [done|]. intros n'. rewrite OT'. split.
    + intros [= <-]. split; [constructor|done].
    + intros [H _]. by inversion H.
  - by destruct (NA ns N).
  - by destruct (NP N).
Qed.

(** *** The table *)
Lemma find_var_app tab f n t f' n' : find_var (tab ++ [(f, n, t)]) f' n' =
  match find_var tab f' n' with Some t => Some t | None => if bool_decide (f = f' /\ n = n') then Some t else None end.
Proof. induction tab as [|[[a b] c] tab IH]; cbn [app find_var]; [done|]. destruct (bool_decide (a = f' /\ b = n')); [done|exact IH]. Qed.

(** The file and the name of a variable of MR_OBJ_TYPE_DWARF. *)
Definition is_key (file name : list Z) (v : var) : Prop := vfile v = Some file /\ dname (vdie v) = Some name /\ object_var name.
Definition good (fuel : nat) (sign : list Z -> Z -> option mtype) (g : list die) (d : die) (T : cty) : Prop :=
  tag d = T_other /\ stands sign g (type_ref d) T /\ full T /\ (depth T < fuel)%nat /\ exists k ms U, T = CArray (k :: ms) U.

Lemma create_vars_ok fuel sign g (ty : die -> cty) vs : forall tab,
  nameless g ->
  (forall v name, v ∈ vs -> dname (vdie v) = Some name -> object_var name -> vfile v <> None /\ good fuel sign g (vdie v) (ty (vdie v))) ->
  (forall i j v w file name, vs !! i = Some v -> vs !! j = Some w -> is_key file name v -> is_key file name w -> i = j) ->
  exists tab', create_vars fuel sign g tab vs = Some tab' /\ forall file name,
    (forall t, find_var tab file name = Some t -> find_var tab' file name = Some t) /\
    (find_var tab file name = None -> forall v, v ∈ vs -> is_key file name v -> forall n, find_var tab' file name = Some n <-> object_type sign (ty (vdie v)) n) /\
    (find_var tab file name = None -> (forall v, v ∈ vs -> ~ is_key file name v) -> find_var tab' file name = None).
Proof.
  induction vs as [|v vs IH]; intros tab NL G UQ; cbn [create_vars].
  - exists tab. split; [done|]. intros file name. split; [done|]. split; [|done]. intros _ v M. by apply elem_of_nil in M.
  - assert (forall tab, exists tab', create_vars fuel sign g tab vs = Some tab' /\ forall file name,
      (forall t, find_var tab file name = Some t -> find_var tab' file name = Some t) /\
      (find_var tab file name = None -> forall v, v ∈ vs -> is_key file name v -> forall n, find_var tab' file name = Some n <-> object_type sign (ty (vdie v)) n) /\
      (find_var tab file name = None -> (forall v, v ∈ vs -> ~ is_key file name v) -> find_var tab' file name = None)) as IH'.
    { intros tab1. apply IH; [done| |].
      - intros w name M. apply G. by constructor.
      - intros i j a b file name Ha Hb Ka Kb. specialize (UQ (S i) (S j) a b file name Ha Hb Ka Kb). lia. }
    assert (forall file name w, is_key file name v -> w ∈ vs -> ~ is_key file name w) as Other.
    { intros file name w K M K'. apply elem_of_list_lookup in M as (j & Hj).
      specialize (UQ 0%nat (S j) v w file name eq_refl Hj K K'). lia. }
    (* the variable is not of the kind, or is *)
    assert ((forall file name, ~ is_key file name v) /\ create_var fuel sign g tab v = Some tab \/
            exists file name, is_key file name v /\ good fuel sign g (vdie v) (ty (vdie v))) as [[NK ->]|(file & name & K & G1)].
    { destruct (dname (vdie v)) as [name|] eqn:EN.
      - destruct (TypeName.is_prefix var_prefix name) eqn:P.
        + right. apply is_prefix_iff in P. destruct (G v name) as [FN G1]; [by constructor|done|done|].
          destruct (vfile v) as [file|] eqn:EF; [|done]. exists file, name. done.
        + left. split.
          * intros file name' (_ & E & OV). rewrite EN in E. injection E as <-. apply is_prefix_iff in OV. unfold var_prefix in P. congruence.
          * unfold create_var. by rewrite EN, P.
      - left. split; [|unfold create_var; by rewrite EN]. intros file name (_ & E & _). congruence. }
    + cbn [mbind option_bind]. destruct (IH' tab) as (tab' & E & I). exists tab'. split; [done|]. intros f n. destruct (I f n) as (I1 & I2 & I3).
      split; [done|]. split.
      * intros N w M Kw. apply elem_of_cons in M as [-> |M]; [by destruct (NK f n)|]. by apply I2.
      * intros N Q. apply I3; [done|]. intros w M. apply Q. by constructor.
    + destruct K as (EF & EN & OV). destruct v as [vf d]. cbn [vfile vdie] in *. subst vf.
      destruct (find_var tab file name) as [t0|] eqn:F0.
      * assert (create_var fuel sign g tab (Var (Some file) d) = Some tab) as ->.
        { unfold create_var. cbn [vdie vfile]. rewrite EN, (proj2 (is_prefix_iff var_prefix name) OV). cbn [negb mbind option_bind]. by rewrite F0. }
        cbn [mbind option_bind]. destruct (IH' tab) as (tab' & E & I). exists tab'. split; [done|]. intros f n. destruct (I f n) as (I1 & I2 & I3).
        split; [done|]. split.
        -- intros N w M Kw. apply elem_of_cons in M as [-> |M]; [|by apply I2].
           destruct Kw as (E1 & E2 & _). cbn in E1, E2. rewrite EN in E2. injection E1 as ->. injection E2 as ->. congruence.
        -- intros N Q. apply I3; [done|]. intros w M. apply Q. by constructor.
      * destruct G1 as (TG & R & FU & L & k & ms & U & ET).
        destruct (create_var_ok fuel sign g tab d file name (ty d) k ms U NL EN OV TG R ET FU L F0) as (r & -> & Hr).
        cbn [mbind option_bind]. set (tab1 := match r with Some n => tab ++ [(file, name, n)] | None => tab end).
        assert (forall f n, find_var tab1 f n = match find_var tab f n with Some t => Some t | None => if bool_decide (file = f /\ name = n) then r else None end) as F1.
        { intros f n. subst tab1. destruct r as [n'|]; [apply find_var_app|]. destruct (find_var tab f n); [done|]. by destruct (bool_decide (file = f /\ name = n)). }
        destruct (IH' tab1) as (tab' & E & I). exists tab'. split; [done|]. intros f n. destruct (I f n) as (I1 & I2 & I3). rewrite F1 in I1, I2, I3.
        split; [|split].
        -- intros t Ht. apply I1. by rewrite Ht.
        -- intros N w M Kw. rewrite N in I1, I2, I3. apply elem_of_cons in M as [-> |M].
           ++ destruct Kw as (E1 & E2 & _). cbn in E1, E2. rewrite EN in E2. injection E1 as ->. injection E2 as ->.
              rewrite bool_decide_eq_true_2 in I1, I2, I3 by done. cbn [vdie]. intros n'. rewrite <- Hr.
              destruct r as [n1|].
              ** by rewrite (I1 _ eq_refl).
              ** rewrite I3; [done|done|]. intros w M. apply (Other f n w); [|done]. done.
           ++ assert (bool_decide (file = f /\ name = n) = false) as B.
              { apply bool_decide_eq_false_2. intros [-> ->]. by destruct (Other f n w ltac:(done) M). }
              rewrite B in I2. by apply I2.
        -- intros N Q. rewrite N in I3. apply I3.
           ++ rewrite bool_decide_eq_false_2; [done|]. intros [-> ->]. apply (Q (Var (Some f) d)); [by constructor|done].
           ++ intros w M. apply Q. by constructor.
Qed.

(** *** The theorems *)
(** For every tree of entries, of any depth, and every variable [name] of MR_OBJ_TYPE_DWARF in the unit [file]:
    mr_ptr_detect_type finds exactly the type the object points to, or of its elements; for other files and names it
    finds nothing. *)
Theorem C92_object_type fuel sign root g1 g2 vars (ty : die -> cty) :
  walk None root = Some (g1, vars) -> nameless g1 -> nameless g2 ->
  (forall f d name, inside None root f d -> dname d = Some name -> object_var name ->
    f <> None /\ good fuel sign g1 d (ty d) /\ good fuel sign g2 d (ty d)) ->
  (forall i j v w file name, vars !! i = Some v -> vars !! j = Some w -> is_key file name v -> is_key file name w -> i = j) ->
  exists tab, extract_vars fuel sign g1 g2 vars = Some tab /\
    (forall file name d, inside None root (Some file) d -> dname d = Some name -> object_var name ->
      forall n, ptr_detect_type tab file name = Some n <-> object_type sign (ty d) n) /\
    (forall file name, (forall d, inside None root (Some file) d -> dname d = Some name -> ~ object_var name) ->
      ptr_detect_type tab file name = None).
Proof.
  intros W N1 N2 G UQ. pose proof (walk_vars _ _ _ _ W) as M.
  destruct (create_vars_ok fuel sign g1 ty vars []) as (tab1 & E1 & I1); [done| |done|].
  { intros [f d] name V EN OV. cbn [vdie vfile] in *. apply M in V. destruct (G f d name V EN OV) as (? & ? & ?). done. }
  destruct (create_vars_ok fuel sign g2 ty vars tab1) as (tab2 & E2 & I2); [done| |done|].
  { intros [f d] name V EN OV. cbn [vdie vfile] in *. apply M in V. destruct (G f d name V EN OV) as (? & ? & ?). done. }
  exists tab2. unfold extract_vars. rewrite E1. cbn [mbind option_bind]. split; [done|]. unfold ptr_detect_type. split.
  - intros file name d V EN OV n. apply M in V.
    assert (is_key file name (Var (Some file) d)) as K by done.
    destruct (I1 file name) as (_ & J1 & _). specialize (J1 eq_refl _ V K). destruct (I2 file name) as (P & J2 & _). cbn [vdie] in *.
    destruct (find_var tab1 file name) as [t|] eqn:F1.
    + rewrite (P t eq_refl). apply J1.
    + by rewrite (J2 eq_refl _ V K n).
  - intros file name Q.
    assert (forall v, v ∈ vars -> ~ is_key file name v) as Q'.
    { intros [f d] V (E & EN & OV). cbn in E, EN. subst f. apply M in V. by apply (Q d V EN). }
    destruct (I1 file name) as (_ & _ & J1). destruct (I2 file name) as (_ & _ & J2). apply J2; [|done]. by apply J1.
Qed.
Print Assumptions C92_object_type.

(** A unit with a structure, an [int], a pointer and arrays of the structure, and variables of
    MR_OBJ_TYPE_DWARF for the pointer, for a table [point_t t[2][3]] and for an [int *]. *)
Definition ex_sign (n : list Z) (z : Z) : option mtype := if bool_decide (n = lit "int") then Some (BASIC 5) else None.
Definition ex_types : list die :=
  [ Die 1 T_structure (Some (lit "point")) (Some 8) None false []; Die 2 T_typedef (Some (lit "point_t")) None (Some 1) false [];
    Die 3 T_pointer None (Some 8) (Some 2) false []; Die 4 T_array None None (Some 3) false [(None, None)];
    Die 5 T_array None None (Some 2) false [(Some 0, None); (None, Some 1); (None, Some 2)];
    Die 6 T_base (Some (lit "int")) (Some 4) None false []; Die 7 T_pointer None (Some 8) (Some 6) false [];
    Die 8 T_array None None (Some 7) false [(None, None)] ].
Definition ex_var (o : Z) (name : list Z) (t : Z) : die := Die o T_other (Some name) None (Some t) false [].
Definition ex_v1 : die := ex_var 20 (lit "mr_ptr_detect_type_var_0") 4.
Definition ex_v2 : die := ex_var 21 (lit "mr_ptr_detect_type_var_1") 5.
Definition ex_v3 : die := ex_var 22 (lit "mr_ptr_detect_type_var_2") 8.
Definition ex_v4 : die := ex_var 23 (lit "point") 1.
Definition ex_root : tree :=
  Tree EOther [Tree (EUnit (Some (lit "a.c")))
    (map (fun d => Tree (EType d) []) ex_types ++ [Tree EOther [Tree (EVar ex_v1) []; Tree EOther [Tree (EVar ex_v2) []]; Tree (EVar ex_v3) []]; Tree (EVar ex_v4) []])].
Definition ex_point : cty := CTypedef (lit "point_t") (CAgg AStruct 1 (Some (lit "point")) (Some 8)).
Definition ex_ty (d : die) : cty :=
  if off d =? 20 then CArray [0] (CPtr ex_point)
  else if off d =? 21 then CArray [0; 2; 3] ex_point
  else CArray [0] (CPtr (CBase (lit "int") (BASIC 5) 4)).
Definition ex_vars : list var := map (Var (Some (lit "a.c"))) [ex_v1; ex_v2; ex_v3; ex_v4].
Lemma ex_walk : walk None ex_root = Some (ex_types, ex_vars).
Proof. vm_compute. reflexivity. Qed.
Lemma ex_stands_point : stands ex_sign ex_types (Some 2) ex_point.
Proof. eapply s_typedef; [reflexivity..|]. exact (s_agg ex_sign ex_types 1 _ AStruct eq_refl eq_refl). Qed.
Lemma ex_good d : d = ex_v1 \/ d = ex_v2 \/ d = ex_v3 -> good 6 ex_sign ex_types d (ex_ty d).
Proof.
  intros [-> |[-> | ->]]; (split; [done|]; split; [|split; [cbn; naive_solver|split; [cbn; lia|by do 3 eexists]]]).
  - eapply s_array; [reflexivity..|]. eapply s_ptr; [reflexivity..|]. exact ex_stands_point.
  - eapply s_array; [reflexivity..|]. exact ex_stands_point.
  - eapply s_array; [reflexivity..|]. eapply s_ptr; [reflexivity..|]. by eapply s_base.
Qed.
Example C92_case :
  walk None ex_root = Some (ex_types, ex_vars) /\ nameless ex_types /\
  (forall f d name, inside None ex_root f d -> dname d = Some name -> object_var name ->
    f <> None /\ good 6 ex_sign ex_types d (ex_ty d) /\ good 6 ex_sign ex_types d (ex_ty d)) /\
  (forall i j v w file name, ex_vars !! i = Some v -> ex_vars !! j = Some w -> is_key file name v -> is_key file name w -> i = j) /\
  exists tab, extract_vars 6 ex_sign ex_types ex_types ex_vars = Some tab /\
    ptr_detect_type tab (lit "a.c") (lit "mr_ptr_detect_type_var_0") = Some (lit "point_t") /\
    ptr_detect_type tab (lit "a.c") (lit "mr_ptr_detect_type_var_1") = Some (lit "point_t") /\
    ptr_detect_type tab (lit "a.c") (lit "mr_ptr_detect_type_var_2") = None /\
    ptr_detect_type tab (lit "a.h") (lit "mr_ptr_detect_type_var_0") = None.
Proof.
  split; [exact ex_walk|]. split; [|split; [|split]].
  - intros d M T. unfold ex_types in M. rewrite !elem_of_cons in M.
    repeat (destruct M as [-> |M]; [cbn in T; naive_solver|]). by apply elem_of_nil in M.
  - intros f d name I EN OV. apply (walk_vars _ _ _ _ ex_walk) in I. unfold ex_vars in I. cbn [map] in I. rewrite !elem_of_cons in I.
    destruct I as [E|[E|[E|[E|E]]]]; [| | | |by apply elem_of_nil in E]; injection E as -> ->.
    + split; [done|]. split; apply ex_good; tauto.
    + split; [done|]. split; apply ex_good; tauto.
    + split; [done|]. split; apply ex_good; tauto.
    + exfalso. destruct OV as (k & ->). by vm_compute in EN.
  - intros i j v w file name Hi Hj (_ & Ev & _) (_ & Ew & _). rewrite <- Ew in Ev. clear Ew.
    destruct i as [|[|[|[|i]]]]; try done; destruct j as [|[|[|[|j]]]]; try done; injection Hi as <-; injection Hj as <-; by vm_compute in Ev.
  - eexists. split; [vm_compute; reflexivity|]. vm_compute. done.
Qed.

(** The tree of one unit with the given types and one variable of the type at [o]. *)
Definition one_var (file name : list Z) (types : list die) (o : Z) : tree :=
  Tree (EUnit (Some file)) (map (fun d => Tree (EType d) []) types ++ [Tree (EVar (ex_var 20 name o)) []]).

(** REFUTED for pointers to qualified types: nothing is found for [const n * p], whatever the type [n]. *)
Theorem C92_qualified_refuted sign file k n z :
  let types := [ Die 1 T_structure (Some n) (Some z) None false []; Die 2 T_const None None (Some 1) false [];
                 Die 3 T_pointer None (Some 8) (Some 2) false []; Die 4 T_array None None (Some 3) false [(None, None)] ] in
  let name := lit "mr_ptr_detect_type_var_" ++ k in
  exists vars tab, walk None (one_var file name types 4) = Some (types, vars) /\ extract_vars 6 sign types types vars = Some tab /\
    ptr_detect_type tab file name = None.
Proof.
  intros types name. assert (TypeName.is_prefix var_prefix name = true) as P by (apply is_prefix_iff; by exists k).
  exists [Var (Some file) (ex_var 20 name 4)], []. split; [reflexivity|]. split; [|done].
  unfold extract_vars. cbn [create_vars].
  assert (create_var 6 sign types [] (Var (Some file) (ex_var 20 name 4)) = Some []) as E.
  { unfold create_var. cbn [vdie vfile ex_var dname]. rewrite P. reflexivity. }
  rewrite E. cbn [mbind option_bind]. by rewrite E.
Qed.
Print Assumptions C92_qualified_refuted.

(** REFUTED for pointers behind a name: for [typedef n * p_t; p_t p] the type found is [p_t], not the type
    [n] of what [p] points to. *)
Theorem C92_typedef_pointer_refuted sign file k n z p :
  let types := [ Die 1 T_structure (Some n) (Some z) None false []; Die 2 T_pointer None (Some 8) (Some 1) false [];
                 Die 3 T_typedef (Some p) None (Some 2) false []; Die 4 T_array None None (Some 3) false [(None, None)] ] in
  let name := lit "mr_ptr_detect_type_var_" ++ k in
  exists vars tab, walk None (one_var file name types 4) = Some (types, vars) /\ extract_vars 6 sign types types vars = Some tab /\
    ptr_detect_type tab file name = Some p.
Proof.
  intros types name. assert (TypeName.is_prefix var_prefix name = true) as P by (apply is_prefix_iff; by exists k).
  exists [Var (Some file) (ex_var 20 name 4)], [(file, name, p)]. split; [reflexivity|]. split.
  - unfold extract_vars. cbn [create_vars].
    assert (create_var 6 sign types [] (Var (Some file) (ex_var 20 name 4)) = Some [(file, name, p)]) as E.
    { unfold create_var. cbn [vdie vfile ex_var dname]. rewrite P. reflexivity. }
    rewrite E. cbn [mbind option_bind]. unfold create_var. cbn [vdie vfile ex_var dname]. rewrite P. cbn [negb mbind option_bind find_var].
    by rewrite bool_decide_eq_true_2.
  - unfold ptr_detect_type. cbn [find_var]. by rewrite bool_decide_eq_true_2.
Qed.
Print Assumptions C92_typedef_pointer_refuted.
