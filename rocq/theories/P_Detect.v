(** C78: from the declaration of a field to its descriptor (src/metaresc.c:1241-1290,
    1356-1470, 1751-1862, 1987-1997). *)
From Coq Require Import String Ascii.
From Verif Require Import Base TypeName TypeNameProof ArrayGeom ArrayGeomProof Detect P_TypeName DetectProof.
Local Open Scope list_scope.
Local Open Scope Z_scope.

(** *** The statements' own vocabulary *)
(** [type] declares the type called [base] ([n = 0]) or a pointer of [n] levels
    to it: words separated by blanks and tabs among which C's qualifiers and tag
    keywords may be mixed, or the name with the stars attached to it. *)
Inductive declared (base : list Z) : nat -> list Z -> Prop :=
| declared_words n ps tr : spaced ps tr ->
    starred base n (single_spaced (name_words (words ps))) -> declared base n (text ps tr)
| declared_attached n : word base -> base ∉ qualifiers -> declared base n (base ++ replicate n 42).

(** The registered types have different names without stars. *)
Definition registry (reg : list tdesc) : Prop :=
  NoDup (map d_name reg) /\ Forall (fun d => 42 ∉ d_name d) reg.

Lemma replicate_starred base n : starred base n (base ++ replicate n 42).
Proof.
  induction n as [|n IH]; [cbn; rewrite app_nil_r; constructor|].
  rewrite replicate_S_end, app_assoc. change [42] with ([] ++ [42]). by constructor.
Qed.
Lemma declared_normal base n type : type_word base -> declared base n type ->
  exists r, normalize_type type = Some r /\ starred base n r.
Proof.
  intros Hb H. destruct H as [n ps tr Hp Hs|n Hw Hq].
  - eexists. split; [by apply C39_normalize|done].
  - eexists. split; [apply attached_normal; [done|by destruct Hb|done]|apply replicate_starred].
Qed.
Lemma declared_ne base n type : type_word base -> declared base n type -> type <> [].
Proof.
  intros Hb H ->. destruct (declared_normal _ _ _ Hb H) as (r & E & Hr). vm_compute in E. injection E as <-.
  destruct (starred_end _ _ _ Hb Hr) as (q & c & E & _). by destruct q.
Qed.

(** What the name means: the type itself, a pointer to it, a pointer to a
    pointer to it; more levels are a pointer to something unknown.  The three
    components are [mr_type], [mr_type_aux] and the type descriptor. *)
Definition meaning (i : nat) (t : Z) (n : nat) : Z * Z * option nat :=
  match n with
  | O => (t, M_NONE, Some i)
  | 1%nat => (M_POINTER, t, Some i)
  | 2%nat => (M_POINTER, M_POINTER, Some i)
  | _ => (M_POINTER, M_VOID, None)
  end.
(** Bytes of an object so declared. *)
Definition bytes (t sz : Z) (n : nat) : Z :=
  match n with O => if t =? M_FUNC_TYPE then 8 else sz | _ => 8 end.

Lemma resolve_declared reg i d n r s : registry reg -> reg !! i = Some d -> type_word (d_name d) ->
  starred (d_name d) n r -> st_aux s = M_NONE \/ n = 1%nat ->
  st_mt s = M_NONE \/ n = O /\ 6 <= st_mt s <= 15 ->
  resolve_name reg s r = Some
    match n with
    | O => (set_mt (d_type d) s, Some i)
    | 1%nat => (set_aux (d_type d) (set_mt M_POINTER s), Some i)
    | 2%nat => (set_aux M_POINTER (set_mt M_POINTER s), Some i)
    | _ => (set_aux M_POINTER (set_mt M_POINTER s), None)
    end.
Proof.
  intros [Hn Hst] Hi Hb Hr Ha Hm. unfold resolve_name, td_mt. destruct n as [|n].
  - apply starred_zero in Hr as ->. rewrite (by_name_found reg i d) by done. rewrite Hi. cbn [mbind option_bind].
    assert (st_mt s <> M_BITFIELD) as Hbf by (unfold M_BITFIELD, M_NONE in *; lia).
    rewrite (proj2 (Z.eqb_neq _ _)) by done. assert (in_mask enum_cases (st_mt s) = true) as ->; [|done].
    unfold in_mask. apply existsb_exists. exists (st_mt s). split; [|apply Z.eqb_refl].
    unfold enum_cases, M_NONE in *. cbn [In]. lia.
  - destruct Hm as [Hm|[? _]]; [|done]. rewrite by_name_star by (done || by eapply starred_star).
    rewrite Hm. change (in_mask none_or_pointer M_NONE) with true. cbv iota.
    destruct (starred_strip _ _ _ Hb Hr) as (r1 & -> & Hr1). cbn [mbind option_bind].
    destruct n as [|n].
    + apply starred_zero in Hr1 as ->. rewrite (by_name_found reg i d) by done. by rewrite Hi.
    + rewrite by_name_star by (done || by eapply starred_star). cbn [set_mt st_aux]. destruct Ha as [Ha|?]; [|done]. rewrite Ha.
      change (in_mask none_or_pointer M_NONE) with true. cbv iota.
      destruct (starred_strip _ _ _ Hb Hr1) as (r2 & -> & Hr2). cbn [mbind option_bind].
      destruct n as [|n].
      * apply starred_zero in Hr2 as ->. by rewrite (by_name_found reg i d).
      * by rewrite by_name_star by (done || by eapply starred_star).
Qed.

Definition compound : list Z := [M_STRUCT; M_UNION; M_ENUM; M_FUNC_TYPE].

(** C78: a field declared with the name of a registered structure, union,
    enumeration or function type, and any number of stars, gets the descriptor
    of what C means by it.  [m] and [a] are what the compiler found out about the
    type and what it points to (the integer type of an enumeration); the size given by the compiler is kept, a missing one
    is filled in. *)
Theorem C78_declared : forall reg i d n type m a cls size,
  registry reg -> reg !! i = Some d -> type_word (d_name d) -> d_type d ∈ compound ->
  declared (d_name d) n type -> 91 ∉ type ->
  (m = M_NONE \/ n = O /\ d_type d = M_ENUM /\ 6 <= m <= 15) -> (a = M_NONE \/ n = 1%nat) ->
  let '(mt, aux, tdp) := meaning i (d_type d) n in
  detect_type reg (Stype None (Some type) m a cls false false size []) =
    Some (Stype tdp (Some type) mt aux cls false false
                (if size =? 0 then bytes (d_type d) (d_size d) n else size) [],
          if (n <=? 2)%nat then d_type d else M_VOID).
Proof.
  intros reg i d n type m a cls size Hreg Hi Hb Ht Hd Hbr Hm Haux.
  destruct (declared_normal _ _ _ Hb Hd) as (r & Hnorm & Hr).
  pose proof (declared_ne _ _ _ Hb Hd) as Hne.
  set (s0 := Stype None (Some type) m a cls false false size []).
  assert (Hskip : in_mask skip_resolution m = false).
  { unfold in_mask, skip_resolution, M_VOID, M_FUNC, M_NONE in *. cbn. rewrite orb_false_r, orb_false_iff.
    split; apply Z.eqb_neq; lia. }
  pose proof (array_text s0 type [] Hbr Hne ltac:(constructor) ltac:(cbn; lia)) as Ha.
  cbn [map concat length] in Ha. rewrite app_nil_r in Ha. change (0 <? 0)%nat with false in Ha. cbn [andb] in Ha. cbv iota in Ha.
  pose proof (resolve_declared reg i d n r s0 Hreg Hi Hb Hr Haux) as Hres.
  specialize (Hres ltac:(cbn; destruct Hm as [->|(-> & _ & ?)]; auto)).
  unfold detect_type, detect_field_type, detect_structured_type. fold s0.
  change (st_mt s0) with m. rewrite Hskip. change (st_type s0) with (Some type). cbv iota.
  rewrite Ha. cbn [mbind option_bind]. rewrite Hnorm. cbn [mbind option_bind]. rewrite Hres.
  subst s0. destruct d as [nm t sz]. cbn [d_name d_type d_size] in *. clear Ha Hres Hnorm Hr.
  unfold compound in Ht. rewrite !elem_of_cons, elem_of_nil in Ht. destruct Ht as [->|[->|[->|[->|[]]]]].
  all: destruct n as [|[|[|n]]]; destruct size as [|p|p].
  all: try (destruct Haux as [->|?]; [|done]).
  all: lazy -[lookup list_lookup td_by_name mul_dims]; rewrite ?Hi; lazy -[lookup list_lookup td_by_name mul_dims]; rewrite ?Hi; lazy -[lookup list_lookup td_by_name mul_dims]; rewrite ?Hi; reflexivity.
Qed.
Print Assumptions C78_declared.

(** *** Arrays *)
Definition product (z : Z) (dims : list Z) : Z := foldr Z.mul z dims.
Lemma mul_dims_mod z dims : mul_dims z dims mod 2 ^ 32 = product z dims mod 2 ^ 32.
Proof.
  induction dims as [|d dims IH]; [done|]. cbn [mul_dims product foldr]. rewrite Z.mod_mod by lia.
  fold (product z dims). rewrite Z.mul_mod, IH, <- Z.mul_mod by lia. by rewrite Z.mul_comm.
Qed.
Lemma mul_dims_ok z dims : 0 <= product z dims < 2 ^ 32 -> mul_dims z dims = product z dims.
Proof.
  intros H. destruct dims as [|d dims]; [done|]. rewrite <- (Z.mod_small _ _ H), <- mul_dims_mod.
  cbn [mul_dims]. by rewrite Z.mod_mod by lia.
Qed.

(** C78: an array of such objects, declared with one to four extents in brackets
    or as an array by the compiler, gets the type and the descriptor of its
    elements (of the elements that are pointers: of what they point to), the
    extents and, if it is missing, the size of all elements together.  Elements
    with more than two levels of pointers make the field opaque. *)
Theorem C78_array : forall reg i d n type exts m a cls arr size dims0,
  registry reg -> reg !! i = Some d -> type_word (d_name d) -> d_type d ∈ compound ->
  declared (d_name d) n type -> 91 ∉ type ->
  (m = M_NONE \/ n = O /\ d_type d = M_ENUM /\ 6 <= m <= 15) -> (a = M_NONE \/ n = 1%nat) ->
  Forall (fun ds => digits ds /\ 0 <= number ds < 2 ^ 31) exts -> (length exts <= 4)%nat ->
  (exts = [] -> arr = true) ->
  let dims := match exts with [] => dims0 | _ => map number exts end in
  let whole := product (match n with O => d_size d | _ => 8 end) dims in
  0 <= whole < 2 ^ 32 ->
  let decl := type ++ concat (map bracket exts) in
  let size' := if size =? 0 then whole else size in
  detect_type reg (Stype None (Some decl) m a cls arr false size dims0) =
    Some (match n with
          | O => Stype (Some i) (Some decl) M_ARRAY (d_type d) cls true false size' dims
          | 1%nat | 2%nat => Stype (Some i) (Some decl) M_ARRAY M_POINTER cls true false size' dims
          | _ => Stype None (Some decl) M_VOID M_VOID cls true false size' dims
          end, if (n <=? 2)%nat then d_type d else M_VOID).
Proof.
  intros reg i d n type exts m a cls arr size dims0 Hreg Hi Hb Ht Hd Hbr Hm Haux Hx Hl Harr dims whole Hw decl size'.
  destruct (declared_normal _ _ _ Hb Hd) as (r & Hnorm & Hr).
  pose proof (declared_ne _ _ _ Hb Hd) as Hne.
  set (s0 := Stype None (Some decl) m a cls arr false size dims0).
  assert (Hskip : in_mask skip_resolution m = false).
  { unfold in_mask, skip_resolution, M_VOID, M_FUNC, M_NONE in *. cbn. rewrite orb_false_r, orb_false_iff.
    split; apply Z.eqb_neq; lia. }
  pose proof (array_text s0 type exts Hbr Hne Hx Hl) as Ha.
  assert (Hs1 : (if (0 <? length exts)%nat && negb ((st_mt s0 =? M_CHAR_ARRAY) && (length exts =? 1)%nat)
                 then set_dims (map number exts) s0 else s0) = Stype None (Some decl) m a cls true false size dims).
  { subst s0 dims. destruct exts as [|e exts]; [cbn; by rewrite Harr|]. cbn [st_mt].
    rewrite (proj2 (Z.eqb_neq m M_CHAR_ARRAY)) by (unfold M_CHAR_ARRAY, M_NONE in *; lia). done. }
  rewrite Hs1 in Ha. clear Hs1. set (s1 := Stype None (Some decl) m a cls true false size dims) in *.
  pose proof (resolve_declared reg i d n r s1 Hreg Hi Hb Hr Haux) as Hres.
  specialize (Hres ltac:(cbn; destruct Hm as [->|(-> & _ & ?)]; auto)).
  unfold detect_type, detect_field_type, detect_structured_type. fold s0.
  change (st_mt s0) with m. rewrite Hskip. change (st_type s0) with (Some decl). cbv iota.
  unfold decl at 1. rewrite Ha. cbn [mbind option_bind]. rewrite Hnorm. cbn [mbind option_bind]. rewrite Hres.
  apply mul_dims_ok in Hw.
  subst size' whole s0 s1. destruct d as [nm t sz]. cbn [d_name d_type d_size] in *. clearbody decl dims. clear Ha Hres Hnorm Hr Hx Hl Harr.
  unfold compound in Ht. rewrite !elem_of_cons, elem_of_nil in Ht. destruct Ht as [->|[->|[->|[->|[]]]]].
  all: destruct n as [|[|[|n]]]; destruct size as [|p|p].
  all: try (destruct Haux as [->|?]; [|done]).
  all: rewrite <- Hw; clear Hw.
  all: lazy -[lookup list_lookup td_by_name mul_dims]; rewrite ?Hi; lazy -[lookup list_lookup td_by_name mul_dims]; rewrite ?Hi; lazy -[lookup list_lookup td_by_name mul_dims]; rewrite ?Hi; reflexivity.
Qed.
Print Assumptions C78_array.

(** *** Basic types *)
(** The basic types and the names under which they are registered. *)
Definition standard : list (Z * string) :=
  [(M_STRING, "string_t"); (M_CHAR, "char"); (M_BOOL, "bool");
   (6, "int8_t"); (7, "uint8_t"); (8, "int16_t"); (9, "uint16_t"); (10, "int32_t"); (11, "uint32_t");
   (12, "int64_t"); (13, "uint64_t"); (14, "mr_int128_t"); (15, "mr_uint128_t");
   (16, "float"); (17, "complex_float_t"); (18, "double"); (19, "complex_double_t");
   (20, "long_double_t"); (21, "complex_long_double_t")]%string.

Lemma lit_codes x : lit x = codes x.
Proof. done. Qed.
Lemma standard_ok t x : (t, x) ∈ standard \/ (t = M_VOID /\ x = "void"%string) ->
  type_name t = Some (codes x) /\ in_mask [M_BITFIELD; M_POINTER] t = false /\ t <> M_NONE /\ t <> M_POINTER /\ t <> M_BITFIELD.
Proof.
  intros H. unfold standard in H. rewrite !elem_of_cons, elem_of_nil in H.
  repeat match goal with H : _ \/ _ |- _ => destruct H as [H|H] end; [injection H as -> ->..|done|destruct H as [-> ->]].
  all: split; [reflexivity|repeat split; done].
Qed.
Lemma standard_mask t x : (t, x) ∈ standard ->
  in_mask skip_resolution t = false /\ in_mask none_or_pointer t = false /\ in_mask valid_pointer_aux t = true /\
  in_mask typed_types t = false /\ in_mask [M_VOID; M_FUNC; M_NONE; M_END_ANON_UNION; M_LAST] t = false /\
  in_mask [M_ARRAY; M_POINTER] t = false /\ (M_STRING <=? t) && (t <=? M_FUNC_TYPE) = true /\
  in_mask [M_NONE; M_END_ANON_UNION; M_LAST] t = false /\ t <> M_VOID /\ t <> M_CHAR_ARRAY.
Proof.
  intros H. unfold standard in H. rewrite !elem_of_cons, elem_of_nil in H.
  repeat match goal with H : _ \/ _ |- _ => destruct H as [H|H] end; [injection H as -> ->..|done].
  all: repeat split; done.
Qed.

(** The part of [detect_type] after the name is resolved, for a known size. *)
Lemma detect_known reg s type r s1 s2 o dt :
  in_mask skip_resolution (st_mt s) = false -> st_type s = Some type -> st_size s <> 0 ->
  type_is_an_array s type = Some (s1, r) -> (st_size s1 = st_size s) ->
  (r' ← normalize_type r; resolve_name reg s1 r') = Some (s2, o) -> st_size s2 = st_size s1 ->
  match basic_tdp reg (settle s2) o with Some i => td_mt reg i = Some dt | None => dt = M_VOID end ->
  detect_type reg s =
    (r ← validate_stype reg (wrap_array_bitfield (set_tdp (basic_tdp reg (settle s2) o) (settle s2))); Some (snd r, dt)).
Proof.
  intros Hskip Hty Hsz Ha Hs1 Hr Hs2 Hdt. unfold detect_type, detect_field_type, detect_structured_type.
  rewrite Hskip, Hty, Ha. cbn [mbind option_bind]. destruct (normalize_type r) as [r'|]; [|done]. cbn [mbind option_bind] in *.
  rewrite Hr. cbn [mbind option_bind].
  set (s3 := wrap_array_bitfield _).
  assert (Hz : st_size s3 = st_size s).
  { subst s3. unfold wrap_array_bitfield, settle.
    repeat match goal with |- context [if ?b then _ else _] => destruct b; cbn end; congruence. }
  assert (Ht : st_tdp s3 = basic_tdp reg (settle s2) o).
  { subst s3. unfold wrap_array_bitfield. cbn. 
    destruct (st_array _); cbn; (destruct (st_bitfield _); cbn); done. }
  unfold detect_size. rewrite Hz, (proj2 (Z.eqb_neq _ _)) by done. cbn [negb mbind option_bind].
  rewrite Ht. destruct (basic_tdp reg (settle s2) o); [rewrite Hdt|subst dt]; done.
Qed.

Lemma valid_ok reg s : stype_fits reg s = Some true -> in_mask [M_NONE; M_END_ANON_UNION; M_LAST] (st_mt s) = false ->
  validate_stype reg s = Some (true, s).
Proof. intros H H'. unfold validate_stype. by rewrite H, H'. Qed.
Lemma fits_array reg k dk ty t cls arr bf size dims : reg !! k = Some dk -> d_type dk = t ->
  in_mask valid_pointer_aux t = true -> in_mask typed_types t = false -> t <> M_VOID -> t <> M_POINTER ->
  stype_fits reg (Stype (Some k) ty M_ARRAY t cls arr bf size dims) = Some true.
Proof.
  intros Hk Hkt Hva Htt Hv Hp. apply Z.eqb_neq in Hv, Hp. unfold stype_fits, td_mt. cbn [st_tdp st_mt st_aux]. rewrite Hk. cbn [mbind option_bind].
  rewrite Hkt, Hv, Hp, Hva, Htt, Z.eqb_refl. done.
Qed.
Lemma fits_pointer reg k dk ty t cls arr bf size dims : reg !! k = Some dk -> d_type dk = t ->
  in_mask valid_pointer_aux t = true -> in_mask typed_types t = false -> t <> M_POINTER ->
  stype_fits reg (Stype (Some k) ty M_POINTER t cls arr bf size dims) = Some true.
Proof.
  intros Hk Hkt Hva Htt Hp. apply Z.eqb_neq in Hp. unfold stype_fits, td_mt. cbn [st_tdp st_mt st_aux]. rewrite Hk. cbn [mbind option_bind].
  rewrite Hkt, Hp, Hva, Htt, Z.eqb_refl. done.
Qed.

(** C78: a field of a basic type, and an array of them, gets the type the
    compiler found (or the type registered under the declared name) and the
    descriptor of the standard name of this type. *)
Theorem C78_basic : forall reg base n type exts t x k dk m a cls arr size dims0,
  registry reg -> (t, x) ∈ standard -> reg !! k = Some dk -> d_name dk = codes x -> d_type dk = t ->
  type_word base -> declared base n type -> 91 ∉ type ->
  (m = t \/ m = M_NONE /\ n = O /\ exists d, d ∈ reg /\ d_name d = base) ->
  (n = O -> forall d, d ∈ reg -> d_name d = base -> d_type d = t) ->
  Forall (fun ds => digits ds /\ 0 <= number ds < 2 ^ 31) exts -> (length exts <= 4)%nat -> size <> 0 ->
  let decl := type ++ concat (map bracket exts) in
  detect_type reg (Stype None (Some decl) m a cls arr false size dims0) =
    Some (if arr || negb (length exts =? 0)%nat
          then Stype (Some k) (Some decl) M_ARRAY t cls true false size (match exts with [] => dims0 | _ => map number exts end)
          else Stype (Some k) (Some decl) t a cls false false size dims0, t).
Proof.
  intros reg base n type exts t x k dk m a cls arr size dims0 Hreg Hstd Hk Hkn Hkt Hb Hd Hbr Hm Hbt Hx Hl Hsz decl.
  destruct (declared_normal _ _ _ Hb Hd) as (r & Hnorm & Hr).
  pose proof (declared_ne _ _ _ Hb Hd) as Hne.
  destruct (standard_ok t x (or_introl Hstd)) as (Hnm & Hbp & Hn0 & Hnp & Hnb).
  destruct (standard_mask t x Hstd) as (Hsk & Hnop & Hva & Htt & Hvf & Hap & Hrng & Hnel & Hnv & Hnca).
  set (s0 := Stype None (Some decl) m a cls arr false size dims0).
  assert (Hmca : m <> M_CHAR_ARRAY) by (destruct Hm as [->|(-> & _)]; done).
  pose proof (array_text s0 type exts Hbr Hne Hx Hl) as Ha.
  set (dims := match exts with [] => dims0 | _ => map number exts end) in *.
  set (arr' := arr || negb (length exts =? 0)%nat).
  assert (Hs1 : (if (0 <? length exts)%nat && negb ((st_mt s0 =? M_CHAR_ARRAY) && (length exts =? 1)%nat)
                 then set_dims (map number exts) s0 else s0) = Stype None (Some decl) m a cls arr' false size dims).
  { subst s0 dims arr'. destruct exts as [|e exts]; [cbn; by rewrite orb_false_r|]. cbn [st_mt].
    rewrite (proj2 (Z.eqb_neq m M_CHAR_ARRAY)) by done. cbn. by rewrite orb_true_r. }
  rewrite Hs1 in Ha. clear Hs1. set (s1 := Stype None (Some decl) m a cls arr' false size dims) in *.
  assert (exists o, resolve_name reg s1 r = Some (Stype None (Some decl) t a cls arr' false size dims, o)) as [o Hres].
  { unfold resolve_name. destruct (td_by_name reg r) as [j|] eqn:Ej.
    - destruct (by_name_some _ _ _ Ej) as (d & Hj & Hjn). unfold td_mt. rewrite Hj. cbn [mbind option_bind].
      assert (n = O) as ->.
      { destruct n as [|n]; [done|]. apply starred_star in Hr. subst r. destruct Hreg as [_ Hs]. rewrite Forall_forall in Hs.
        exfalso. eapply Hs; [by eapply elem_of_list_lookup_2|done]. }
      apply starred_zero in Hr as ->. rewrite (Hbt eq_refl d) by (done || by eapply elem_of_list_lookup_2).
      exists (Some j). f_equal. f_equal. cbn [st_mt s1].
      rewrite (proj2 (Z.eqb_neq m M_BITFIELD)) by (destruct Hm as [->|(-> & _)]; done).
      destruct (in_mask enum_cases m) eqn:Ee; [done|]. destruct Hm as [->|(-> & _)]; done.
    - destruct Hm as [->|(-> & -> & d & Hd1 & Hd2)].
      + cbn [st_mt s1]. rewrite Hnop. eauto.
      + apply starred_zero in Hr as ->. apply elem_of_list_lookup in Hd1 as [j Hj]. subst base.
        destruct Hreg as [Hnd _]. by rewrite (by_name_found reg j d) in Ej. }
  assert (Hset : settle (Stype None (Some decl) t a cls arr' false size dims) = Stype None (Some decl) t a cls arr' false size dims).
  { apply Z.eqb_neq in Hn0, Hnp. unfold settle. do 4 (cbn [st_mt andb]; rewrite ?Hn0, ?Hnp). done. }
  assert (Hbas : basic_tdp reg (Stype None (Some decl) t a cls arr' false size dims) o = Some k).
  { unfold basic_tdp. cbn [st_mt st_aux]. rewrite Hbp, Hnm, <- Hkn. apply by_name_found; [by destruct Hreg|done]. }
  erewrite (detect_known reg s0 decl type s1 _ o t); cycle 1.
  - cbn. destruct Hm as [->|(-> & _)]; done.
  - done.
  - done.
  - exact Ha.
  - done.
  - rewrite Hnorm. exact Hres.
  - done.
  - rewrite Hset, Hbas. unfold td_mt. rewrite Hk. cbn. by rewrite Hkt.
  - rewrite Hset, Hbas.
    assert (Hdd : arr' = false -> dims = dims0) by (subst arr' dims; destruct exts; [done|]; by destruct arr).
    clearbody arr' dims. destruct arr'.
    + change (wrap_array_bitfield _) with (Stype (Some k) (Some decl) M_ARRAY t cls true false size dims).
      rewrite valid_ok; [done| |done]. apply (fits_array reg k dk); [done|done|done|done|done|done].
    + rewrite Hdd by done. change (wrap_array_bitfield _) with (Stype (Some k) (Some decl) t a cls false false size dims0).
      rewrite valid_ok; [done| |done].
      unfold stype_fits, td_mt. cbn [st_tdp st_mt st_aux]. rewrite Hk. cbn [mbind option_bind]. rewrite Hkt.
      by rewrite Hvf, (proj2 (Z.eqb_neq t M_BITFIELD)), Hap, Htt, Hrng, Z.eqb_refl, orb_true_r by done.
Qed.
Print Assumptions C78_basic.

Lemma detect_unsized reg s type r s1 s2 o dt :
  in_mask skip_resolution (st_mt s) = false -> st_type s = Some type -> st_size s = 0 ->
  type_is_an_array s type = Some (s1, r) -> (st_size s1 = st_size s) ->
  (r' ← normalize_type r; resolve_name reg s1 r') = Some (s2, o) -> st_size s2 = st_size s1 ->
  match basic_tdp reg (settle s2) o with Some i => td_mt reg i = Some dt | None => dt = M_VOID end ->
  let s3 := wrap_array_bitfield (set_tdp (basic_tdp reg (settle s2) o) (settle s2)) in
  type_size (st_mt s3) <> 0 ->
  detect_type reg s = (r ← validate_stype reg (set_size (type_size (st_mt s3)) s3); Some (snd r, dt)).
Proof.
  intros Hskip Hty Hsz Ha Hs1 Hr Hs2 Hdt s3 Hz3. unfold detect_type, detect_field_type, detect_structured_type.
  rewrite Hskip, Hty, Ha. cbn [mbind option_bind]. destruct (normalize_type r) as [r'|]; [|done]. cbn [mbind option_bind] in *.
  rewrite Hr. cbn [mbind option_bind]. fold s3.
  assert (Hz : st_size s3 = 0).
  { subst s3. unfold wrap_array_bitfield, settle.
    repeat match goal with |- context [if ?b then _ else _] => destruct b; cbn end; congruence. }
  assert (Ht : st_tdp s3 = basic_tdp reg (settle s2) o).
  { subst s3. unfold wrap_array_bitfield. cbn. 
    destruct (st_array _); cbn; (destruct (st_bitfield _); cbn); done. }
  clearbody s3. unfold detect_size. rewrite Hz, Z.eqb_refl. cbn [negb]. change (st_size (set_size (type_size (st_mt s3)) s3)) with (type_size (st_mt s3)).
  rewrite (proj2 (Z.eqb_neq _ _) Hz3). cbn [negb mbind option_bind].
  change (st_tdp (set_size (type_size (st_mt s3)) s3)) with (st_tdp s3). rewrite Ht. destruct (basic_tdp reg (settle s2) o); [rewrite Hdt|subst dt]; done.
Qed.

(** The sizes of the basic types, in bytes. *)
Definition basic_sizes : list (string * Z) :=
  [("string_t", 8); ("char", 1); ("bool", 1); ("int8_t", 1); ("uint8_t", 1); ("int16_t", 2); ("uint16_t", 2); ("int32_t", 4); ("uint32_t", 4);
   ("int64_t", 8); ("uint64_t", 8); ("mr_int128_t", 16); ("mr_uint128_t", 16); ("float", 4); ("complex_float_t", 8); ("double", 8);
   ("complex_double_t", 16); ("long_double_t", 16); ("complex_long_double_t", 32)]%string.
Lemma standard_size t x z : (t, x) ∈ standard -> (x, z) ∈ basic_sizes -> type_size t = z /\ z <> 0.
Proof.
  assert (H : forallb (fun '(t, x) => forallb (fun '(y, z) => if String.eqb x y then (type_size t =? z) && negb (z =? 0) else true) basic_sizes) standard = true) by (vm_compute; reflexivity).
  intros H1%elem_of_list_In H2%elem_of_list_In. rewrite forallb_forall in H. specialize (H _ H1). cbn beta iota in H. rewrite forallb_forall in H. specialize (H _ H2).
  cbn beta iota in H. rewrite String.eqb_refl in H. apply andb_prop in H as [H3%Z.eqb_eq H4]. split; [done|]. intros ->. done.
Qed.

(** C78: a basic type found by the compiler gets its size if it has none. *)
Theorem C78_basic_size : forall reg base type t x z k dk a cls dims0,
  registry reg -> (t, x) ∈ standard -> (x, z) ∈ basic_sizes -> reg !! k = Some dk -> d_name dk = codes x -> d_type dk = t ->
  type_word base -> declared base 0 type -> 91 ∉ type ->
  (forall d, d ∈ reg -> d_name d = base -> d_type d = t) ->
  detect_type reg (Stype None (Some type) t a cls false false 0 dims0) = Some (Stype (Some k) (Some type) t a cls false false z dims0, t).
Proof.
  intros reg base type t x z k dk a cls dims0 Hreg Hstd Hz Hk Hkn Hkt Hb Hd Hbr Hbt.
  destruct (declared_normal _ _ _ Hb Hd) as (r & Hnorm & Hr). pose proof (declared_ne _ _ _ Hb Hd) as Hne.
  destruct (standard_ok t x (or_introl Hstd)) as (Hnm & Hbp & Hn0 & Hnp & Hnb). destruct (standard_size t x z Hstd Hz) as [Hts Hz0].
  destruct (standard_mask t x Hstd) as (Hsk & Hnop & Hva & Htt & Hvf & Hap & Hrng & Hnel & Hnv & Hnca).
  set (s0 := Stype None (Some type) t a cls false false 0 dims0).
  pose proof (array_text s0 type [] Hbr Hne ltac:(constructor) ltac:(cbn; lia)) as Ha. cbn [map concat length Nat.ltb Nat.leb andb] in Ha. rewrite app_nil_r in Ha.
  assert (exists o, resolve_name reg s0 r = Some (s0, o)) as [o Hres].
  { unfold resolve_name. destruct (td_by_name reg r) as [j|] eqn:Ej.
    - destruct (by_name_some _ _ _ Ej) as (d & Hj & Hjn). unfold td_mt. rewrite Hj. cbn [mbind option_bind].
      apply starred_zero in Hr as ->. rewrite (Hbt d) by (done || by eapply elem_of_list_lookup_2).
      exists (Some j). f_equal. f_equal. cbn [st_mt s0]. rewrite (proj2 (Z.eqb_neq t M_BITFIELD)) by done. by destruct (in_mask enum_cases t).
    - cbn [st_mt s0]. rewrite Hnop. eauto. }
  assert (Hset : settle s0 = s0).
  { apply Z.eqb_neq in Hn0, Hnp. unfold settle. do 4 (cbn [st_mt s0 andb]; rewrite ?Hn0, ?Hnp). done. }
  assert (Hbas : basic_tdp reg s0 o = Some k).
  { unfold basic_tdp. cbn [st_mt st_aux s0]. rewrite Hbp, Hnm, <- Hkn. apply by_name_found; [by destruct Hreg|done]. }
  erewrite (detect_unsized reg s0 type type s0 s0 o t); cycle 1.
  - done.
  - done.
  - done.
  - exact Ha.
  - done.
  - rewrite Hnorm. exact Hres.
  - done.
  - rewrite Hset, Hbas. unfold td_mt. rewrite Hk. cbn. by rewrite Hkt.
  - rewrite Hset, Hbas. change (type_size t <> 0). by rewrite Hts.
  - rewrite Hset, Hbas. change (wrap_array_bitfield _) with (Stype (Some k) (Some type) t a cls false false 0 dims0). cbn [st_mt]. rewrite Hts. unfold set_size. cbn [st_tdp st_type st_mt st_aux st_class st_array st_bitfield st_dims].
    rewrite valid_ok; [done| |done]. unfold stype_fits, td_mt. cbn [st_tdp st_mt st_aux]. rewrite Hk. cbn [mbind option_bind]. rewrite Hkt.
    by rewrite Hvf, (proj2 (Z.eqb_neq t M_BITFIELD)), Hap, Htt, Hrng, Z.eqb_refl, orb_true_r by done.
Qed.
Print Assumptions C78_basic_size.

(** C78: pointers to basic types (found by the compiler in [mr_type_aux]), void
    pointers, and arrays of them. *)
Theorem C78_basic_pointer : forall reg base n type exts t x k dk cls arr size dims0,
  registry reg -> (t, x) ∈ standard \/ (t = M_VOID /\ x = "void"%string) ->
  reg !! k = Some dk -> d_name dk = codes x -> d_type dk = t ->
  type_word base -> declared base (S n) type -> 91 ∉ type ->
  (n = O -> forall d, d ∈ reg -> d_name d = base -> d_type d = t) ->
  Forall (fun ds => digits ds /\ 0 <= number ds < 2 ^ 31) exts -> (length exts <= 4)%nat -> size <> 0 ->
  let decl := type ++ concat (map bracket exts) in
  detect_type reg (Stype None (Some decl) M_NONE t cls arr false size dims0) =
    Some (if arr || negb (length exts =? 0)%nat
          then Stype (Some k) (Some decl) M_ARRAY M_POINTER cls true false size (match exts with [] => dims0 | _ => map number exts end)
          else Stype (Some k) (Some decl) M_POINTER t cls false false size dims0, t).
Proof.
  intros reg base n type exts t x k dk cls arr size dims0 Hreg Hstd Hk Hkn Hkt Hb Hd Hbr Hbt Hx Hl Hsz decl.
  destruct (declared_normal _ _ _ Hb Hd) as (r & Hnorm & Hr).
  pose proof (declared_ne _ _ _ Hb Hd) as Hne.
  destruct (standard_ok t x Hstd) as (Hnm & Hbp & Hn0 & Hnp & Hnb).
  assert (Hmask : in_mask none_or_pointer t = false /\ in_mask valid_pointer_aux t = true /\ in_mask typed_types t = false).
  { destruct Hstd as [Hstd|[-> _]]; [|done]. destruct (standard_mask t x Hstd) as (_ & ? & ? & ? & _). done. }
  destruct Hmask as (Hnop & Hva & Htt).
  set (s0 := Stype None (Some decl) M_NONE t cls arr false size dims0).
  pose proof (array_text s0 type exts Hbr Hne Hx Hl) as Ha.
  set (dims := match exts with [] => dims0 | _ => map number exts end) in *.
  set (arr' := arr || negb (length exts =? 0)%nat).
  assert (Hs1 : (if (0 <? length exts)%nat && negb ((st_mt s0 =? M_CHAR_ARRAY) && (length exts =? 1)%nat)
                 then set_dims (map number exts) s0 else s0) = Stype None (Some decl) M_NONE t cls arr' false size dims).
  { subst s0 dims arr'. destruct exts as [|e exts]; [cbn; by rewrite orb_false_r|]. cbn. by rewrite orb_true_r. }
  rewrite Hs1 in Ha. clear Hs1. set (s1 := Stype None (Some decl) M_NONE t cls arr' false size dims) in *.
  set (s2 := Stype None (Some decl) M_POINTER t cls arr' false size dims).
  assert (exists o, resolve_name reg s1 r = Some (s2, o)) as [o Hres].
  { unfold resolve_name. destruct Hreg as [Hnd Hstar]. rewrite (by_name_star reg r Hstar) by (by eapply starred_star).
    change (in_mask none_or_pointer (st_mt s1)) with true. cbv iota.
    destruct (starred_strip _ _ _ Hb Hr) as (r1 & -> & Hr1). cbn [mbind option_bind].
    destruct (td_by_name reg r1) as [j|] eqn:Ej.
    - destruct (by_name_some _ _ _ Ej) as (d & Hj & Hjn). unfold td_mt. rewrite Hj. cbn [mbind option_bind].
      destruct n as [|n].
      + apply starred_zero in Hr1 as ->. rewrite (Hbt eq_refl d) by (done || by eapply elem_of_list_lookup_2). by exists (Some j).
      + apply starred_star in Hr1. subst r1. rewrite Forall_forall in Hstar.
        exfalso. eapply Hstar; [by eapply elem_of_list_lookup_2|done].
    - change (st_aux (set_mt M_POINTER s1)) with t. rewrite Hnop. by exists None. }
  assert (Hset : settle s2 = s2).
  { apply Z.eqb_neq in Hn0. unfold settle, s2. cbn [st_mt]. change (M_POINTER =? M_NONE) with false.
    change (M_POINTER =? M_POINTER) with true. cbn [andb]. cbn [st_mt st_aux].
    change (M_POINTER =? M_NONE) with false. change (M_POINTER =? M_POINTER) with true. cbn [andb st_mt st_aux]. by rewrite Hn0. }
  assert (Hbas : basic_tdp reg s2 o = Some k).
  { unfold basic_tdp. change (in_mask [M_BITFIELD; M_POINTER] (st_mt s2)) with true. cbv iota.
    change (st_aux s2) with t. rewrite Hnm, <- Hkn. apply by_name_found; [by destruct Hreg|done]. }
  erewrite (detect_known reg s0 decl type s1 s2 o t); cycle 1.
  - done.
  - done.
  - done.
  - exact Ha.
  - done.
  - rewrite Hnorm. exact Hres.
  - done.
  - rewrite Hset, Hbas. unfold td_mt. rewrite Hk. cbn. by rewrite Hkt.
  - rewrite Hset, Hbas.
    assert (Hdd : arr' = false -> dims = dims0) by (subst arr' dims; destruct exts; [done|]; by destruct arr).
    clear Hres Hset Hbas. subst s2. clear s1 Ha. clearbody arr' dims. destruct arr'.
    + change (wrap_array_bitfield _) with (Stype (Some k) (Some decl) M_ARRAY M_POINTER cls true false size dims).
      rewrite valid_ok; [done| |done]. unfold stype_fits, td_mt. cbn [st_tdp st_mt st_aux]. rewrite Hk. done.
    + rewrite Hdd by done. change (wrap_array_bitfield _) with (Stype (Some k) (Some decl) M_POINTER t cls false false size dims0).
      rewrite valid_ok; [done| |done]. by apply (fits_pointer reg k dk).
Qed.
Print Assumptions C78_basic_pointer.

(** C78: a name that is not registered makes the field opaque, or a void pointer
    if the compiler says that it is a pointer. *)
Theorem C78_unknown : forall reg base type k dk cls size,
  registry reg -> reg !! k = Some dk -> d_name dk = codes "void" -> d_type dk = M_VOID ->
  type_word base -> declared base 0 type -> 91 ∉ type -> (forall d, d ∈ reg -> d_name d <> base) -> size <> 0 ->
  detect_type reg (Stype None (Some type) M_NONE M_NONE cls false false size []) =
    Some (Stype (Some k) (Some type) (if cls : bool then M_POINTER else M_VOID) (if cls then M_VOID else M_NONE)
                cls false false size [], M_VOID).
Proof.
  intros reg base type k dk cls size Hreg Hk Hkn Hkt Hb Hd Hbr Hun Hsz.
  destruct (declared_normal _ _ _ Hb Hd) as (r & Hnorm & Hr). apply starred_zero in Hr as ->.
  pose proof (declared_ne _ _ _ Hb Hd) as Hne.
  set (s0 := Stype None (Some type) M_NONE M_NONE cls false false size []).
  pose proof (array_text s0 type [] Hbr Hne ltac:(constructor) ltac:(cbn; lia)) as Ha.
  cbn [map concat length] in Ha. rewrite app_nil_r in Ha. change (0 <? 0)%nat with false in Ha. cbn [andb] in Ha. cbv iota in Ha.
  assert (Hvoid : td_by_name reg (codes "void") = Some k) by (rewrite <- Hkn; apply by_name_found; [by destruct Hreg|done]).
  set (s3 := Stype None (Some type) (if cls then M_POINTER else M_VOID) (if cls then M_VOID else M_NONE) cls false false size []).
  assert (Hset : settle s0 = s3) by (subst s0 s3; by destruct cls).
  assert (Hbas : basic_tdp reg s3 None = Some k) by (subst s3; destruct cls; exact Hvoid).
  erewrite (detect_known reg s0 type type s0 s0 None M_VOID); cycle 1.
  - done.
  - done.
  - done.
  - exact Ha.
  - done.
  - rewrite Hnorm. cbn [mbind option_bind]. unfold resolve_name. rewrite (by_name_none reg base) by done.
    change (in_mask none_or_pointer (st_mt s0)) with true. cbv iota. by rewrite starred_base.
  - done.
  - rewrite Hset, Hbas. unfold td_mt. rewrite Hk. cbn. by rewrite Hkt.
  - rewrite Hset, Hbas. subst s3.
    assert (Hw : forall c : bool, wrap_array_bitfield (set_tdp (Some k)
                  (Stype None (Some type) (if c then M_POINTER else M_VOID) (if c then M_VOID else M_NONE) c false false size []))
                 = Stype (Some k) (Some type) (if c then M_POINTER else M_VOID) (if c then M_VOID else M_NONE) c false false size [])
      by (by intros []).
    rewrite Hw. rewrite valid_ok; [done| |by destruct cls].
    destruct cls; [by apply (fits_pointer reg k dk)|]. unfold stype_fits, td_mt. cbn [st_tdp]. by rewrite Hk.
Qed.
Print Assumptions C78_unknown.

Lemma word_dec x : forallb (fun c => negb (c =? 0) && negb (isspace c) && negb (c =? 42)) (codes x) = true -> codes x <> [] -> word (codes x).
Proof.
  intros Hx Hne. rewrite forallb_forall in Hx. split; [done|].
  split; [|left]; apply Forall_forall; intros c Hc; apply elem_of_list_In in Hc; apply Hx in Hc;
    rewrite !andb_true_iff, !negb_true_iff in Hc; destruct Hc as [[H1 H2] H3].
  - rewrite <- white_isspace. rewrite H2. split; [lia|done].
  - lia.
Qed.

(** C78 is false for arrays of pointers to pointers.  The array has no place for
    the second level: [struct foo * a[3]] and [struct foo ** a[3]] get the same
    descriptor (line 1432 overwrites [mr_type_aux]), and what the elements of the
    second one point to is taken for structures. *)
Theorem C78_array_of_pointers_refuted : exists reg i d type1 type2 s1 s2 b1 b2,
  registry reg /\ reg !! i = Some d /\ d_type d = M_STRUCT /\
  declared (d_name d) 1 type1 /\ declared (d_name d) 2 type2 /\
  detect_type reg (Stype None (Some type1) M_NONE M_NONE true true false 24 [3]) = Some (s1, b1) /\
  detect_type reg (Stype None (Some type2) M_NONE M_NONE true true false 24 [3]) = Some (s2, b2) /\
  st_mt s1 = M_ARRAY /\ st_aux s1 = M_POINTER /\ b1 = M_STRUCT /\
  st_mt s1 = st_mt s2 /\ st_aux s1 = st_aux s2 /\ st_tdp s1 = st_tdp s2 /\ st_dims s1 = st_dims s2 /\
  st_size s1 = st_size s2 /\ b1 = b2.
Proof.
  assert (Hw : word (codes "foo")) by (by apply word_dec).
  assert (Hq : codes "foo" ∉ qualifiers).
  { apply (bool_decide_unpack _). vm_compute. exact I. }
  eexists [Tdesc (codes "foo") M_STRUCT 24], 0%nat, _, (codes "foo*"), (codes "foo**"), _, _, _, _.
  split. { split; [apply (bool_decide_unpack _); vm_compute; exact I|]. repeat constructor. apply (bool_decide_unpack _). vm_compute. exact I. }
  split; [done|]. split; [done|].
  split; [by apply (declared_attached (codes "foo") 1)|]. split; [by apply (declared_attached (codes "foo") 2)|].
  split; [vm_compute; reflexivity|]. split; [vm_compute; reflexivity|]. done.
Qed.
Print Assumptions C78_array_of_pointers_refuted.

(** *** Cases *)
Definition ex_reg : list tdesc :=
  [Tdesc (codes "void") M_VOID 8; Tdesc (codes "int32_t") 10 4; Tdesc (codes "foo") M_STRUCT 24; Tdesc (codes "color") M_ENUM 4;
   Tdesc (codes "int") 10 4; Tdesc (codes "string_t") M_STRING 8].
Definition ex_decl : list (list Z * list Z) :=
  [([], codes "const"); ([32], codes "struct"); ([32; 9], codes "foo"); ([32], codes "*"); ([32], codes "const")].
Lemma ex_registry : registry ex_reg.
Proof.
  split; [apply (bool_decide_unpack _); vm_compute; exact I|].
  apply Forall_forall. intros d Hd. unfold ex_reg in Hd. rewrite !elem_of_cons, elem_of_nil in Hd.
  repeat (destruct Hd as [Hd|Hd]; [subst d; apply (bool_decide_unpack _); vm_compute; exact I|]). done.
Qed.
Lemma ex_word x q c : codes x = q ++ [c] -> bool_decide (42 ∉ codes x) = true -> isspace c = false -> type_word (codes x).
Proof.
  intros E H Hc. split; [by apply (bool_decide_eq_true_1 _) in H|]. exists q, c. split; [done|].
  rewrite <- white_isspace. by rewrite Hc.
Qed.
(** [const struct foo * const], and an array [color a[2][30]] of enumerations. *)
Example C78_declared_case :
  registry ex_reg /\ type_word (codes "foo") /\ M_STRUCT ∈ compound /\
  declared (codes "foo") 1 (text ex_decl []) /\ 91 ∉ text ex_decl [] /\
  detect_type ex_reg (Stype None (Some (text ex_decl [])) M_NONE M_NONE true false false 8 []) =
    Some (Stype (Some 2%nat) (Some (text ex_decl [])) M_POINTER M_STRUCT true false false 8 [], M_STRUCT) /\
  digits (codes "30") /\ number (codes "30") = 30 /\
  codes "color[2][30]" = codes "color" ++ concat (map bracket [codes "2"; codes "30"]) /\
  detect_type ex_reg (Stype None (Some (codes "color[2][30]")) 11 M_NONE false false false 0 []) =
    Some (Stype (Some 3%nat) (Some (codes "color[2][30]")) M_ARRAY M_ENUM false true false 240 [2; 30], M_ENUM).
Proof.
  split; [apply ex_registry|]. split; [by apply (ex_word "foo" (codes "fo") 111)|].
  split; [by apply elem_of_cons; left|].
  split.
  { apply declared_words; [by apply spaced_dec|].
    change (single_spaced _) with (codes "foo" ++ [32] ++ [42]). apply starred_S; [apply starred_0|].
    repeat constructor. }
  split; [apply (bool_decide_unpack _); vm_compute; exact I|].
  split; [vm_compute; reflexivity|]. split; [split; [done|repeat constructor; done]|].
  split; [done|]. split; [done|]. vm_compute. reflexivity.
Qed.
(** [int a[3]] without a standard name in the declaration, [char ** s] and a name
    that is not registered. *)
Example C78_basic_case :
  (10, "int32_t"%string) ∈ standard /\ (M_STRING, "string_t"%string) ∈ standard /\
  type_word (codes "int") /\ word (codes "int") /\ declared (codes "char") 2 (codes "char**") /\
  (forall d, d ∈ ex_reg -> d_name d = codes "int" -> d_type d = 10) /\
  detect_type ex_reg (Stype None (Some (codes "int[3]")) 10 M_NONE true true false 12 [3]) =
    Some (Stype (Some 1%nat) (Some (codes "int[3]")) M_ARRAY 10 true true false 12 [3], 10) /\
  detect_type ex_reg (Stype None (Some (codes "char**")) M_NONE M_STRING true false false 8 []) =
    Some (Stype (Some 5%nat) (Some (codes "char**")) M_POINTER M_STRING true false false 8 [], M_STRING) /\
  detect_type ex_reg (Stype None (Some (codes "bar_t")) M_NONE M_NONE true false false 8 []) =
    Some (Stype (Some 0%nat) (Some (codes "bar_t")) M_POINTER M_VOID true false false 8 [], M_VOID).
Proof.
  split; [unfold standard; rewrite !elem_of_cons; auto 20|]. split; [unfold standard; rewrite !elem_of_cons; auto|].
  split; [by apply (ex_word "int" (codes "in") 116)|]. split; [by apply word_dec|].
  split.
  { apply (declared_attached (codes "char") 2); [by apply word_dec|]. apply (bool_decide_unpack _). vm_compute. exact I. }
  split.
  { intros d Hd E. unfold ex_reg in Hd. rewrite !elem_of_cons, elem_of_nil in Hd.
    repeat (destruct Hd as [Hd|Hd]; [subst d; first [done|by vm_compute in E]|]). done. }
  split; [vm_compute; reflexivity|]. split; [vm_compute; reflexivity|]. vm_compute. reflexivity.
Qed.

(** A basic type without a size. *)
Example C78_basic_size_case : ("int32_t"%string, 4) ∈ basic_sizes /\ declared (codes "int") 0 (codes "int") /\
  detect_type ex_reg (Stype None (Some (codes "int")) 10 M_NONE false false false 0 []) =
    Some (Stype (Some 1%nat) (Some (codes "int")) 10 M_NONE false false false 4 [], 10).
Proof.
  split; [unfold basic_sizes; rewrite !elem_of_cons; auto 20|]. split; [|vm_compute; reflexivity].
  apply (declared_attached (codes "int") 0); [by apply word_dec|]. apply (bool_decide_unpack _). vm_compute. exact I.
Qed.
