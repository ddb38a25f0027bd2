(** C89: descriptions of members from debug information (src/mr_dwarf.c:612-976). *)
From Coq Require Import Ascii String.
From stdpp Require Import list.
From Verif Require Import Base Dwarf.
Local Open Scope Z_scope.

(** *** The statements' own vocabulary *)
(** Types of C.  An aggregate has the offset of its entry, its name and its size. *)
Inductive agg := AStruct | AUnion | AAnonUnion | AEnum.
Inductive cty :=
| CVoid | CBase (n : list Z) (m : mtype) (sz : Z) | CFunc | CAgg (k : agg) (o : Z) (n : option (list Z)) (sz : option Z)
| CQual (t : cty) | CTypedef (n : list Z) (t : cty) | CArray (ns : list Z) (t : cty) | CPtr (t : cty).
Definition agg_type (k : agg) : mtype := match k with AStruct => STRUCT | AUnion => UNION | AAnonUnion => ANON_UNION | AEnum => ENUM end.
Definition agg_tag (k : agg) : dtag := match k with AStruct => T_structure | AUnion | AAnonUnion => T_union | AEnum => T_enumeration end.

(** A type without qualifiers and names. *)
Fixpoint strip (t : cty) : cty := match t with CQual t => strip t | CTypedef _ t => strip t | _ => t end.
(** What the type is made of, from the outside; pointers to characters and functions are one level. *)
Fixpoint levels (t : cty) : list mtype :=
  match t with
  | CVoid | CFunc => []
  | CBase _ m _ => [m]
  | CAgg k _ _ _ => [agg_type k]
  | CQual t | CTypedef _ t => levels t
  | CArray _ t => ARRAY :: levels t
  | CPtr t => match strip t with
              | CBase _ CHAR _ => [STRING]
              | CFunc => [FUNC_TYPE]
              | _ => POINTER :: levels t
              end
  end.
(** Functions occur behind pointers only; built-in types have a type of the library. *)
Fixpoint wf (below : bool) (t : cty) : Prop :=
  match t with
  | CVoid | CAgg _ _ _ _ => True
  | CBase _ m _ => m <> NONE /\ m <> VOID
  | CFunc => below = true
  | CQual t | CTypedef _ t => wf below t
  | CArray _ t => wf false t
  | CPtr t => wf true t
  end.
Fixpoint ends_in_func (t : cty) : bool :=
  match t with CFunc => true | CQual t | CTypedef _ t | CArray _ t | CPtr t => ends_in_func t | _ => false end.
(** The printed name: that of the outermost typedef, with a star per pointer around it. *)
Fixpoint cname (dec : Z -> list Z) (t : cty) : option (list Z) :=
  match t with
  | CVoid | CFunc => None
  | CBase n _ _ => Some n
  | CAgg _ o n _ => Some (match n with Some n => n | None => lit "mr_type_anonymous_" ++ dec o ++ lit "_t" end)
  | CQual t | CArray _ t => cname dec t
  | CTypedef n _ => Some n
  | CPtr t => match cname dec t with Some n => Some (n ++ lit " *") | None => None end
  end.
(** The size of the type, of the elements of an array. *)
Fixpoint csize (t : cty) : option Z :=
  match t with
  | CVoid | CFunc => None
  | CBase _ _ z => Some z
  | CAgg _ _ _ z => z
  | CQual t | CTypedef _ t | CArray _ t => csize t
  | CPtr _ => Some 8
  end.
(** The dimensions of all arrays of the type, from the outside. *)
Fixpoint arrays (t : cty) : list (list Z) :=
  match t with CArray ns t => ns :: arrays t | CQual t | CTypedef _ t | CPtr t => arrays t | _ => [] end.
Definition prod (l : list Z) : Z := foldr Z.mul 1 l.
(** Four dimensions are kept; more are joined. *)
Definition kept (ns : list Z) : list Z := if decide (length ns <= 4)%nat then ns else take 3 ns ++ [prod (drop 3 ns) mod 2 ^ 32].

(** The three members for the levels of a type; more levels are not supported, the type is then [VOID]. *)
Definition describes (l : list mtype) (s : stype) : Prop :=
  match l with
  | [] => mr_type s = NONE /\ mr_type_aux s = NONE /\ mr_type_ptr s = NONE
  | [a] => mr_type s = a /\ mr_type_aux s = NONE /\ mr_type_ptr s = NONE
  | [a; b] => mr_type s = a /\ mr_type_aux s = b /\ mr_type_ptr s = NONE
  | [a; b; c] => mr_type s = a /\ mr_type_aux s = b /\ mr_type_ptr s = c
  | a :: _ => mr_type s = VOID /\ mr_type_aux s = a
  end.

(** Entries that stand for a type. *)
Definition is_count (sub : option Z * option Z) (n : Z) : Prop :=
  0 <= n < 2 ^ 32 /\ (snd sub = Some (n - 1) \/ (snd sub = None /\ fst sub = Some n)).
Inductive repr (sign : list Z -> Z -> option mtype) (g : list die) : option Z -> cty -> Prop :=
| r_void : repr sign g None CVoid
| r_base o d n m sz : find_die g o = Some d -> tag d = T_base -> dname d = Some n -> byte_size d = Some sz -> sign n sz = Some m ->
    repr sign g (Some o) (CBase n m sz)
| r_func o d : find_die g o = Some d -> tag d = T_subroutine -> repr sign g (Some o) CFunc
| r_agg o d k : find_die g o = Some d -> tag d = agg_tag k ->
    (k = AUnion -> anonymous d = false /\ dname d <> None) -> (k = AAnonUnion -> anonymous d = true \/ dname d = None) ->
    repr sign g (Some o) (CAgg k o (dname d) (byte_size d))
| r_qual o d t : find_die g o = Some d -> tag d = T_const \/ tag d = T_volatile -> repr sign g (type_ref d) t -> repr sign g (Some o) (CQual t)
| r_typedef o d n t : find_die g o = Some d -> tag d = T_typedef -> dname d = Some n -> byte_size d = None -> repr sign g (type_ref d) t ->
    repr sign g (Some o) (CTypedef n t)
| r_array o d ns t : find_die g o = Some d -> tag d = T_array -> Forall2 is_count (subs d) ns -> repr sign g (type_ref d) t ->
    repr sign g (Some o) (CArray ns t)
| r_ptr o d t : find_die g o = Some d -> tag d = T_pointer -> repr sign g (type_ref d) t -> repr sign g (Some o) (CPtr t).

Fixpoint depth (t : cty) : nat :=
  match t with CQual t | CTypedef _ t | CArray _ t | CPtr t => S (depth t) | _ => 1%nat end.

(** *** Dimensions *)
Lemma dimension_ok sub n : is_count sub n -> dimension sub = n.
Proof.
  intros [H [E|[E1 E2]]]; unfold dimension.
  - rewrite E. rewrite Z.mod_small; lia.
  - rewrite E1, E2. by rewrite Z.mod_small.
Qed.
Lemma get_dims_4 : forall ss ns a p, Forall2 is_count ss ns -> length a = 3%nat -> 0 <= p < 2 ^ 32 ->
  get_dims (a ++ [p]) ss = a ++ [(p * prod ns) mod 2 ^ 32].
Proof.
  intros ss ns a p F. revert p. induction F as [|sub n ss ns H F IH]; intros p La Hp; cbn [get_dims].
  - cbn. by rewrite Z.mul_1_r, Z.mod_small.
  - rewrite app_length, La. cbn [length Nat.add Nat.ltb Nat.leb Nat.sub]. rewrite alter_app_r_alt by lia. rewrite La. cbn [alter list_alter Nat.sub].
    rewrite (dimension_ok _ _ H). rewrite IH; [|done|apply Z.mod_pos_bound; lia]. do 2 f_equal. cbn [prod foldr]. fold (prod ns).
    rewrite Z.mul_mod_idemp_l by lia. by rewrite Z.mul_assoc.
Qed.
Lemma get_dims_small : forall ss ns a, Forall2 is_count ss ns -> (length a + length ns <= 4)%nat -> get_dims a ss = a ++ ns.
Proof.
  intros ss ns a F. revert a. induction F as [|sub n ss ns H F IH]; intros a L; cbn [get_dims].
  - by rewrite app_nil_r.
  - cbn in L. destruct (Nat.ltb_spec (length a) 4); [|lia]. rewrite (dimension_ok _ _ H), IH; [by rewrite <- app_assoc|]. rewrite app_length. cbn. lia.
Qed.
Lemma get_dims_ok ss ns : Forall2 is_count ss ns -> get_dims [] ss = kept ns.
Proof.
  intros F. unfold kept. destruct (decide _) as [L|L]; [by rewrite (get_dims_small ss ns)|].
  destruct F as [|s1 n1 ss ns H1 F]; [cbn in L; lia|]. destruct F as [|s2 n2 ss ns H2 F]; [cbn in L; lia|].
  destruct F as [|s3 n3 ss ns H3 F]; [cbn in L; lia|]. destruct F as [|s4 n4 ss ns H4 F]; [cbn in L; lia|].
  cbn [get_dims length Nat.ltb Nat.leb app]. rewrite (dimension_ok _ _ H1), (dimension_ok _ _ H2), (dimension_ok _ _ H3), (dimension_ok _ _ H4).
  change [n1; n2; n3; n4] with ([n1; n2; n3] ++ [n4]). rewrite (get_dims_4 ss ns); [done|done|done|apply H4].
Qed.

(** *** The three members while a type is read *)
Definition slots (l : list mtype) (s : stype) : Prop :=
  match l with
  | [] => mr_type s = NONE /\ mr_type_aux s = NONE /\ mr_type_ptr s = NONE
  | [a] => mr_type s = NONE /\ mr_type_aux s = NONE /\ mr_type_ptr s = a
  | [a; b] => mr_type s = NONE /\ mr_type_aux s = a /\ mr_type_ptr s = b
  | [a; b; c] => mr_type s = a /\ mr_type_aux s = b /\ mr_type_ptr s = c
  | a :: _ => mr_type s = VOID /\ mr_type_aux s = a
  end.
Definition real (m : mtype) : Prop := m <> NONE /\ m <> VOID.

Lemma push_slots l s m : Forall real l -> slots l s -> slots (l ++ [m]) (push s m).
Proof.
  intros F H. unfold push. destruct l as [|a [|b [|c [|d l]]]]; cbn in *; repeat (apply Forall_cons in F as [[??] F]);
    repeat match goal with H : _ /\ _ |- _ => destruct H end; repeat (case_decide; cbn); try (by repeat split); congruence.
Qed.
Lemma finish_slots l s : Forall real l -> slots l s -> describes l (finish s).
Proof.
  intros F H. unfold finish. destruct l as [|a [|b [|c [|d l]]]]; cbn in *; repeat (apply Forall_cons in F as [[??] F]);
    repeat match goal with H : _ /\ _ |- _ => destruct H end; repeat (case_decide; cbn); try (by repeat split); congruence.
Qed.
Lemma finish_describes l s : Forall real l -> describes l s -> describes l (finish s).
Proof.
  intros F H. unfold finish. destruct l as [|a [|b [|c [|d l]]]]; cbn in *; repeat (apply Forall_cons in F as [[??] F]);
    repeat match goal with H : _ /\ _ |- _ => destruct H end; repeat (case_decide; cbn); try (by repeat split); congruence.
Qed.
Lemma push_rest s m : type (push s m) = type s /\ size (push s m) = size s /\ dim (push s m) = dim s.
Proof. unfold push. repeat case_decide; done. Qed.
Lemma finish_rest s : type (finish s) = type s /\ size (finish s) = size s /\ dim (finish s) = dim s.
Proof. unfold finish. repeat case_decide; done. Qed.

(** The levels behind [l], the last one of which may be the pointer around the type. *)
Fixpoint join (l : list mtype) (t : cty) : list mtype :=
  match t with
  | CVoid => l
  | CBase _ m _ => if decide (last l = Some POINTER /\ m = CHAR) then removelast l ++ [STRING] else l ++ [m]
  | CFunc => removelast l ++ [FUNC_TYPE]
  | CAgg k _ _ _ => l ++ [agg_type k]
  | CQual t | CTypedef _ t => join l t
  | CArray _ t => join (l ++ [ARRAY]) t
  | CPtr t => join (l ++ [POINTER]) t
  end.
Lemma join_ptr l t : wf true t -> join (l ++ [POINTER]) t = l ++ levels (CPtr t).
Proof.
  assert (G : (forall t l, wf true t -> join (l ++ [POINTER]) t = l ++ levels (CPtr t)) /\ True); [|intros; by apply G].
  split; [|done]. clear.
  assert (G : forall t, (forall l, last l <> Some POINTER -> wf false t -> join l t = l ++ levels t) /\ (forall l, wf true t -> join (l ++ [POINTER]) t = l ++ levels (CPtr t))).
  { induction t as [|n m sz| |k o n sz|t [IH1 IH2]|n t [IH1 IH2]|ns t [IH1 IH2]|t [IH1 IH2]]; split; intros l.
    - intros _ _. cbn. by rewrite app_nil_r.
    - intros _. done.
    - intros Hl _. cbn. destruct (decide _) as [[? _]|_]; done.
    - intros _. cbn. rewrite last_snoc, removelast_last. destruct (decide _) as [[_ ->]|N]; [done|]. rewrite <- app_assoc. cbn. destruct m; try done. by destruct N.
    - done.
    - intros _. cbn. by rewrite removelast_last.
    - done.
    - intros _. cbn. by rewrite <- app_assoc.
    - cbn. apply IH1.
    - cbn. apply IH2.
    - cbn. apply IH1.
    - cbn. apply IH2.
    - intros _ H. cbn. rewrite IH1; [by rewrite <- app_assoc|by rewrite last_snoc|done].
    - intros H. cbn in *. rewrite IH1; [by rewrite <- !app_assoc|by rewrite last_snoc|done].
    - intros _ H. cbn in *. by apply IH2.
    - intros H. cbn [join]. cbn in H. rewrite IH2 by done. rewrite <- app_assoc. done. }
  intros t l. apply G.
Qed.
Lemma join_levels t : forall l, last l <> Some POINTER -> wf false t -> join l t = l ++ levels t.
Proof.
  induction t as [|n m sz| |k o n sz|t IH|n t IH|ns t IH|t IH]; intros l Hl H; cbn in H |- *; try done.
  - by rewrite app_nil_r.
  - destruct (decide _) as [[? _]|_]; done.
  - by apply IH.
  - by apply IH.
  - rewrite IH; [by rewrite <- app_assoc|by rewrite last_snoc|done].
  - by apply join_ptr.
Qed.

Lemma find_off g o d : find_die g o = Some d -> off d = o /\ indexed (tag d) = true.
Proof. intros [_ H]%List.find_some. apply andb_prop in H as [? ?%Z.eqb_eq]. done. Qed.
Lemma find_set g o d d' : find_die g o = Some d -> off d' = o -> indexed (tag d') = true -> find_die (set_die g d') o = Some d'.
Proof.
  intros F E I. unfold find_die, set_die in *. rewrite E. induction g as [|x g IH]; [done|]. cbn [map List.find] in *.
  destruct (Z.eqb_spec (off x) o) as [Ex|Nx].
  - rewrite I, E, Z.eqb_refl. done.
  - destruct (Z.eqb_spec (off x) o); [done|]. rewrite andb_false_r in *. by apply IH.
Qed.

(** What is known after reading a type. *)
Definition read_as (dec : Z -> list Z) (l : list mtype) (s : stype) (t : cty) (s' : stype) : Prop :=
  describes (join l t) s' /\
  type s' = match type s with Some n => Some n | None => cname dec t end /\
  size s' = match csize t with Some z => z | None => size s end /\
  dim s' = match last (arrays t) with Some ns => kept ns | None => dim s end.

Lemma real_join t : forall l b, Forall real l -> wf b t -> Forall real (join l t).
Proof.
  assert (R : forall l, Forall real l -> Forall real (removelast l)).
  { intros l F. destruct l as [|x l _] using rev_ind; [done|]. rewrite removelast_last. by apply Forall_app in F as [F _]. }
  induction t as [|n m sz| |k o n sz|t IH|n t IH|ns t IH|t IH]; intros l b F H; cbn in H |- *; eauto.
  - destruct (decide _); apply Forall_app; split; auto; by repeat constructor.
  - apply Forall_app; split; auto; by repeat constructor.
  - apply Forall_app; split; auto. repeat constructor; by destruct k.
  - eapply IH; [|done]. apply Forall_app; split; auto; by repeat constructor.
  - eapply IH; [|done]. apply Forall_app; split; auto; by repeat constructor.
Qed.

Lemma read_ok dec sign g r t : repr sign g r t -> forall fuel b l s d, type_ref d = r -> (depth t <= fuel)%nat -> wf b t -> (b = true -> last l = Some POINTER) ->
  Forall real l -> slots l s -> (ends_in_func t = true -> (length (join l t) <= 3)%nat) ->
  exists s' g', get_mr_type fuel dec sign g s d = Some (s', g') /\ read_as dec l s t s'.
Proof.
  induction 1 as [|o e n m sz Fo Te Ne Be Se|o e Fo Te|o e k Fo Te Hu Ha|o e t Fo Te R IH|o e n t Fo Te Ne Be R IH|o e ns t Fo Te Fc R IH|o e t Fo Te R IH];
    intros [|fuel] b l s d Er Hf W B Fl Sl Hfn; try (cbn in Hf; lia); cbn [get_mr_type]; rewrite Er; [|rewrite Fo; cbn [mbind option_bind]..].
  - (* void *) eexists _, _. split; [done|]. pose proof (finish_rest s) as (E1 & E2 & E3). split; [by apply finish_slots|]. rewrite E1, E2, E3. by destruct (type s).
  - (* base *) rewrite Te. unfold get_base. rewrite Be, Ne. cbn [mbind option_bind]. rewrite Se. cbn [mbind option_bind mr_type_ptr]. eexists _, _. split; [done|].
    set (s1 := if decide (mr_type_ptr s = POINTER /\ m = CHAR) then _ else _).
    assert (H1 : slots (join l (CBase n m sz)) s1 /\ type s1 = type s /\ size s1 = sz /\ dim s1 = dim s).
    { subst s1. cbn [join]. set (s0 := Stype _ _ _ (type s) sz _). assert (S0 : slots l s0) by done.
      assert (last l = Some POINTER -> (length l <= 3)%nat -> mr_type_ptr s = POINTER).
      { clear -Sl. destruct l as [|x [|y [|z [|w l]]]]; cbn in *; [done|..]; intros E L; try lia; injection E as ->; tauto. }
      assert (mr_type_ptr s = POINTER -> (length l <= 3)%nat -> last l = Some POINTER).
      { clear -Sl. destruct l as [|x [|y [|z [|w l]]]]; cbn in *; intros E L; try lia; destruct Sl as (? & ? & ?); congruence. }
      destruct (decide (mr_type_ptr s = POINTER /\ m = CHAR)) as [[Ep ->]|Np].
      - destruct (decide (length l <= 3)%nat) as [L|L].
        + rewrite decide_True by auto. split; [|done]. destruct l as [|x [|y [|z [|w l]]]]; cbn in *; try lia; destruct Sl as (? & ? & ?); try congruence; done.
        + destruct l as [|x [|y [|z [|w l]]]]; cbn in L; try lia. split; [|done]. destruct Sl as [? ?]. case_decide; [|done].
          destruct l as [|u l]; [done|]. cbn. by destruct l.
      - pose proof (push_rest s0 m) as (E1 & E2 & E3). split; [|by rewrite E1, E2, E3]. case_decide as D; [|by apply push_slots].
        destruct D as [D ->]. destruct (decide (length l <= 3)%nat) as [L|L]; [exfalso; auto|].
        destruct l as [|x [|y [|z [|w l]]]]; cbn in L; try lia. pose proof (push_slots _ _ CHAR Fl S0) as P. destruct P as [P1 P2]. cbn in P1, P2.
        destruct l as [|u l]; [by split|]. cbn. by destruct l. }
    destruct H1 as (H1 & H2 & H3 & H4). rewrite H2, H3. set (s2 := Stype _ _ _ _ _ _). assert (S2 : slots (join l (CBase n m sz)) s2) by done.
    pose proof (finish_rest s2) as (E1 & E2 & E3). split; [apply finish_slots; [by eapply real_join|done]|]. rewrite E1, E2, E3. cbn. rewrite H4. by destruct (type s).
  - (* function *) rewrite Te. cbn in W. specialize (B W). specialize (Hfn eq_refl). cbn [join] in Hfn.
    assert (L : (length l <= 3)%nat). { destruct l as [|x l _] using rev_ind; [done|]. rewrite removelast_last, app_length in Hfn. rewrite app_length. cbn in *. lia. }
    assert (P : mr_type_ptr s = POINTER). { destruct l as [|x [|y [|z [|w l]]]]; cbn in *; [done|..]; try lia; injection B as ->; tauto. }
    rewrite decide_True by done. eexists _, _. split; [done|]. set (s2 := Stype _ _ _ _ _ _). pose proof (finish_rest s2) as (E1 & E2 & E3).
    split; [apply finish_slots; [by eapply (real_join CFunc)|]|rewrite E1, E2, E3; by destruct (type s)].
    cbn [join]. destruct l as [|x [|y [|z [|w l]]]]; cbn in *; try lia; tauto.
  - (* aggregate *) destruct (find_off _ _ _ Fo) as [Eo Ei].
    assert (N : forall s, exists g', get_type_name dec g s e = (Stype (mr_type s) (mr_type_aux s) (mr_type_ptr s)
         (Some (match type s with Some t => t | None => match dname e with Some n => n | None => lit "mr_type_anonymous_" ++ dec o ++ lit "_t" end end))
         (match byte_size e with Some z => z | None => size s end) (dim s), g') /\
         exists e', find_die g' o = Some e' /\ anonymous e' = (if dname e then anonymous e else true)).
    { intros u. unfold get_type_name. destruct (dname e) as [n|]; [by eauto|]. rewrite Eo.
      destruct (type u); (eexists; split; [reflexivity|]; eexists; split; [eapply find_set; [done|done|done]|done]). }
    rewrite Te. destruct k; cbn [agg_tag].
    + destruct (N (push s STRUCT)) as (g' & -> & _). eexists _, _. split; [done|]. set (s2 := Stype _ _ _ _ _ _). pose proof (finish_rest s2) as (E1 & E2 & E3).
      pose proof (push_rest s STRUCT) as (P1 & P2 & P3). split; [apply finish_slots; [by eapply real_join|by apply (push_slots l s STRUCT)]|]. rewrite E1, E2, E3. cbn. rewrite P1, P2, P3. by destruct (type s).
    + destruct (N s) as (g' & -> & e' & -> & Ea). cbn [mbind option_bind]. eexists _, _. split; [done|]. destruct (Hu eq_refl) as [Hu1 Hu2]. rewrite Ea. destruct (dname e) as [n|] eqn:En; [|done]. rewrite Hu1.
      set (s2 := Stype _ _ _ _ _ _). assert (S2 : slots l s2) by done. pose proof (push_rest s2 UNION) as (P1 & P2 & P3). pose proof (finish_rest (push s2 UNION)) as (E1 & E2 & E3).
      split; [apply finish_slots; [by eapply real_join|by apply (push_slots l s2 UNION)]|]. rewrite E1, E2, E3, P1, P2, P3. cbn. by destruct (type s).
    + destruct (N s) as (g' & -> & e' & -> & Ea). cbn [mbind option_bind]. eexists _, _. split; [done|]. assert (anonymous e' = true) as ->. { rewrite Ea. destruct (Ha eq_refl) as [-> | ->]; [by destruct (dname e)|done]. }
      set (s2 := Stype _ _ _ _ _ _). assert (S2 : slots l s2) by done. pose proof (push_rest s2 ANON_UNION) as (P1 & P2 & P3). pose proof (finish_rest (push s2 ANON_UNION)) as (E1 & E2 & E3).
      split; [apply finish_slots; [by eapply real_join|by apply (push_slots l s2 ANON_UNION)]|]. rewrite E1, E2, E3, P1, P2, P3. cbn. by destruct (type s).
    + destruct (N (push s ENUM)) as (g' & -> & _). eexists _, _. split; [done|]. set (s2 := Stype _ _ _ _ _ _). pose proof (finish_rest s2) as (E1 & E2 & E3).
      pose proof (push_rest s ENUM) as (P1 & P2 & P3). split; [apply finish_slots; [by eapply real_join|by apply (push_slots l s ENUM)]|]. rewrite E1, E2, E3. cbn. rewrite P1, P2, P3. by destruct (type s).
  - (* qualifier *) destruct (IH fuel b l s e) as (s' & g' & E & H); [done|cbn in Hf; lia|done..|]. exists s', g'. split; [by destruct Te as [-> | ->]|done].
  - (* typedef *) rewrite Te. unfold get_type_name. rewrite Ne, Be. set (s1 := Stype _ _ _ _ _ _).
    destruct (IH fuel b l s1 e) as (s' & g' & E & H1 & H2 & H3 & H4); [done|cbn in Hf; lia|done..|]. exists s', g'. split; [done|]. split; [done|]. rewrite H2, H3, H4. cbn. by destruct (type s).
  - (* array *) rewrite Te. unfold get_array. pose proof (push_rest s ARRAY) as (P1 & P2 & P3). rewrite P1, P2, (get_dims_ok _ _ Fc). set (s1 := Stype _ _ _ _ _ _).
    destruct (IH fuel false (l ++ [ARRAY]) s1 e) as (s' & g' & E & H1 & H2 & H3 & H4); [done|cbn in Hf; lia|done|done| |by apply (push_slots l s ARRAY)|done|].
    { apply Forall_app; split; [done|by repeat constructor]. }
    exists s', g'. split; [done|]. split; [done|]. rewrite H2, H3, H4. cbn [type size dim s1 cname csize arrays]. split; [done|]. split; [done|].
    destruct (arrays t) as [|x y]; [done|]. change (last (ns :: x :: y)) with (last (x :: y)). destruct (last (x :: y)) eqn:El; [done|]. by apply last_None in El.
  - (* pointer *) rewrite Te. pose proof (push_rest s POINTER) as (P1 & P2 & P3).
    destruct (IH fuel true (l ++ [POINTER]) (push s POINTER) e) as (s' & g' & E & H1 & H2 & H3 & H4); [done|cbn in Hf; lia|done|by rewrite last_snoc| |by apply push_slots|done|].
    { apply Forall_app; split; [done|by repeat constructor]. }
    rewrite E. cbn [mbind option_bind]. eexists _, _. split; [done|]. set (s2 := Stype _ _ _ _ _ _). pose proof (finish_rest s2) as (E1 & E2 & E3).
    split; [apply finish_describes; [by eapply (real_join (CPtr t))|done]|]. rewrite E1, E2, E3. cbn [s2 type size dim csize cname arrays]. rewrite H2, H4, P1, P3. split; [|done].
    by destruct (type s), (cname dec t).
Qed.

(** C89: a type is described by its levels, its name, its size and the dimensions of its array. *)
Theorem C89_types : forall dec sign g d t fuel, repr sign g (type_ref d) t -> wf false t -> (depth t <= fuel)%nat ->
  (ends_in_func t = true -> (length (levels t) <= 3)%nat) ->
  exists s g', get_mr_type fuel dec sign g stype0 d = Some (s, g') /\ describes (levels t) s /\
    type s = cname dec t /\ size s = default 0 (csize t) /\
    (arrays t = [] -> dim s = []) /\ (forall ns, arrays t = [ns] -> dim s = kept ns).
Proof.
  intros dec sign g d t fuel R W Hf Hfn. pose proof (join_levels t [] ltac:(done) W) as J. cbn [app] in J.
  destruct (read_ok dec sign g _ t R fuel false [] stype0 d) as (s & g' & E & H1 & H2 & H3 & H4); [done|done|done|done|done|done|by rewrite J|].
  exists s, g'. split; [done|]. rewrite J in H1. split; [done|]. split; [done|]. split; [done|]. rewrite H4. split; [by intros ->|]. by intros ns ->.
Qed.
Print Assumptions C89_types.

(** The number of the first bit of a member. *)
Definition first_bit (m : member) (w : option Z) (p : Z) : Prop :=
  match w with
  | None => p = 8 * default 0 (location m)
  | Some w =>
    match bit_offset m with
    | None => data_bit_offset m = Some p
    | Some b => data_bit_offset m = None /\ exists sz, byte_size (mdie m) = Some sz /\ p = 8 * default 0 (location m) + (8 * sz - w - b) /\ 0 <= 8 * sz - w - b < 2 ^ 8
    end
  end.

(** Members: name, type and place.  For a bit field the first level says so. *)
Theorem C89_members : forall dec sign g ty idx m t fuel p, repr sign g (type_ref (mdie m)) t -> wf false t -> (depth t <= fuel)%nat ->
  let l := match bit_size m with Some _ => BITFIELD :: levels t | None => levels t end in
  (ends_in_func t = true -> (length l <= 3)%nat) -> (forall w, bit_size m = Some w -> 0 <= w < 2 ^ 8) -> first_bit m (bit_size m) p ->
  exists f g', load_member fuel dec sign g ty idx m = Some (f, g') /\
    describes l (fstype f) /\ 8 * offset f + shift f = p /\ 0 <= shift f < 8 /\ (forall w, bit_size m = Some w -> width f = w) /\
    (forall z, csize t = Some z -> size (fstype f) = z) /\ (forall ns, arrays t = [ns] -> dim (fstype f) = kept ns) /\
    match dname (mdie m) with
    | Some n => fname f = n /\ unnamed f = false /\ type (fstype f) = cname dec t
    | None => fname f = ty ++ lit "_" ++ dec idx /\ unnamed f = true /\ type (fstype f) = Some (ty ++ lit "_" ++ dec idx ++ lit "_t")
    end.
Proof.
  intros dec sign g ty idx m t fuel p R W Hf l Hfn Hw Hp.
  assert (K : exists un w sh o nm tn, load_member fuel dec sign g ty idx m =
     ('(s, g) ← get_mr_type fuel dec sign g (Stype NONE NONE (match bit_size m with Some _ => BITFIELD | None => NONE end) tn (default 0 (byte_size (mdie m))) []) (mdie m); Some (Fd nm un o w sh s, g)) /\
     8 * o + sh = p /\ 0 <= sh < 8 /\ (forall w', bit_size m = Some w' -> w = w') /\
     match dname (mdie m) with Some n => nm = n /\ un = false /\ tn = None | None => nm = ty ++ lit "_" ++ dec idx /\ un = true /\ tn = Some (ty ++ lit "_" ++ dec idx ++ lit "_t") end).
  { unfold load_member. set (nt := match dname (mdie m) with Some n => (n, false, None) | None => _ end).
    assert (En : exists nm un tn, nt = (nm, un, tn) /\ match dname (mdie m) with Some n => nm = n /\ un = false /\ tn = None | None => nm = ty ++ lit "_" ++ dec idx /\ un = true /\ tn = Some (ty ++ lit "_" ++ dec idx ++ lit "_t") end).
    { subst nt. destruct (dname (mdie m)); eexists _, _, _; (split; [done|]); [done|]. by rewrite <- !app_assoc. }
    destruct En as (nm & un & tn & -> & Hn). unfold first_bit in Hp. destruct (bit_size m) as [w|].
    - specialize (Hw w eq_refl). rewrite (Z.mod_small w) by done. destruct (bit_offset m) as [b|].
      + destruct Hp as (-> & sz & Es & -> & Hb). rewrite Es. rewrite (Z.mod_small (sz * 8 - w - b)) by lia.
        eexists _, _, _, _, _, _. split; [reflexivity|]. pose proof (Z.div_mod (sz * 8 - w - b) 8 ltac:(lia)). pose proof (Z.mod_pos_bound (sz * 8 - w - b) 8 ltac:(lia)).
        split; [|split; [lia|split; [congruence|done]]]. destruct (location m); unfold default, id in *; lia.
      + rewrite Hp. eexists _, _, _, _, _, _. split; [by destruct (byte_size (mdie m))|]. pose proof (Z.div_mod p 8 ltac:(lia)). pose proof (Z.mod_pos_bound p 8 ltac:(lia)).
        split; [lia|]. split; [lia|]. split; [congruence|done].
    - eexists _, _, _, _, _, _. split; [by destruct (byte_size (mdie m))|]. subst p. split; [destruct (location m); unfold default, id in *; lia|]. split; [lia|]. split; [done|done]. }
  destruct K as (un & w & sh & o & nm & tn & -> & K1 & K2 & K3 & K4). set (s0 := Stype NONE NONE _ tn _ []).
  set (pre := match bit_size m with Some _ => [BITFIELD] | None => [] end).
  assert (J : join pre t = l). { subst pre l. rewrite join_levels; [by destruct (bit_size m)|by destruct (bit_size m)|done]. }
  destruct (read_ok dec sign g _ t R fuel false pre s0 (mdie m)) as (s & g' & -> & H1 & H2 & H3 & H4); [done|done|done|done| | |by rewrite J|].
  { subst pre. destruct (bit_size m); by repeat constructor. } { subst pre s0. by destruct (bit_size m). }
  cbn [mbind option_bind]. eexists _, _. split; [done|]. cbn [fstype offset shift width fname unnamed]. rewrite J in H1. split; [done|]. split; [done|]. split; [done|]. split; [done|].
  split; [by intros z Ez; rewrite H3, Ez|]. split; [by intros ns En; rewrite H4, En|]. rewrite H2. cbn [s0 type].
  destruct (dname (mdie m)); destruct K4 as (-> & -> & ->); done.
Qed.
Print Assumptions C89_members.

(** Entries keep their names; only entries without a name get one. *)
Definition kept_entry (d d' : die) : Prop := off d' = off d /\ tag d' = tag d /\ byte_size d' = byte_size d /\ type_ref d' = type_ref d /\ subs d' = subs d /\
  ((dname d' = dname d /\ anonymous d' = anonymous d) \/ (dname d = None /\ dname d' <> None /\ anonymous d' = true)).
Lemma kept_refl g : Forall2 kept_entry g g.
Proof. induction g; constructor; [|done]. repeat split. by left. Qed.
Lemma kept_trans g1 g2 g3 : Forall2 kept_entry g1 g2 -> Forall2 kept_entry g2 g3 -> Forall2 kept_entry g1 g3.
Proof.
  intros H. revert g3. induction H as [|x y g1 g2 H F IH]; intros g3 H3; inversion H3 as [|? z ? g3' H' F']; subst; constructor; [|by apply IH].
  destruct H as (? & ? & ? & ? & ? & Hn), H' as (? & ? & ? & ? & ? & Hn'). do 5 (split; [congruence|]).
  destruct Hn as [[N1 A1]|(N1 & N2 & A1)], Hn' as [[N1' A1']|(N1' & N2' & A1')]; [left|right|right|congruence]; [split; congruence|split; [congruence|done]|].
  split; [done|]. split; congruence.
Qed.
Theorem C89_entries : forall fuel dec sign g s d s' g', NoDup (map off g) ->
  get_mr_type fuel dec sign g s d = Some (s', g') -> Forall2 kept_entry g g'.
Proof.
  assert (N : forall dec g s d s' g', NoDup (map off g) -> d ∈ g -> get_type_name dec g s d = (s', g') -> Forall2 kept_entry g g').
  { intros dec g s d s' g' ND Hd. unfold get_type_name. destruct (dname d) as [n|] eqn:En; intros [= _ <-]; [apply kept_refl|]. unfold set_die. cbn [off].
    set (d' := Die _ _ _ _ _ _ _).
    enough (forall x, x ∈ g -> kept_entry x (if off x =? off d then d' else x)) as H.
    { clear -H. induction g as [|x g IH]; [constructor|]. constructor; [apply H; by left|]. apply IH. intros y Hy. apply H. by right. }
    intros x Hx. destruct (Z.eqb_spec (off x) (off d)) as [Ex|]; [|repeat split; by left].
    assert (x = d) as ->.
    { apply elem_of_list_lookup in Hx as [i Hi], Hd as [j Hj]. assert (i = j) as ->; [|congruence].
      apply (NoDup_lookup _ i j (off d) ND); by rewrite list_lookup_fmap, ?Hi, ?Hj; cbn; rewrite ?Ex. }
    repeat split. right. by repeat split. }
  assert (D : forall g o d, find_die g o = Some d -> d ∈ g). { intros g o d [H _]%List.find_some. by apply elem_of_list_In. }
  assert (O : forall g g', Forall2 kept_entry g g' -> NoDup (map off g) -> NoDup (map off g')).
  { intros g g' F. enough (map off g' = map off g) as ->; [done|]. induction F as [|x y g g' H F IH]; [done|]. cbn. rewrite IH. f_equal. apply H. }
  induction fuel as [|fuel IH]; intros dec sign g s d s' g' ND; cbn [get_mr_type]; [done|]. destruct (type_ref d) as [o|]; [|intros [= _ <-]; apply kept_refl].
  destruct (find_die g o) as [e|] eqn:Fe; [|done]. cbn [mbind option_bind]. pose proof (D _ _ _ Fe) as He. destruct (tag e).
  - by apply IH.
  - by apply IH.
  - by apply IH.
  - destruct (get_type_name dec g s e) as [s1 g1] eqn:E1. intros H. pose proof (N _ _ _ _ _ _ ND He E1) as K. eapply kept_trans; [exact K|]. eapply IH; [|exact H]. by eapply O.
  - destruct (get_mr_type fuel dec sign g (push s POINTER) e) as [[s1 g1]|] eqn:E1; [|done]. cbn [mbind option_bind]. intros [= _ <-]. by eapply IH.
  - destruct (get_base sign s e); [|done]. cbn. intros [= _ <-]. apply kept_refl.
  - case_decide; [|done]. intros [= _ <-]. apply kept_refl.
  - destruct (get_type_name dec g (push s STRUCT) e) as [s1 g1] eqn:E1. intros [= _ <-]. by eapply N.
  - destruct (get_type_name dec g s e) as [s1 g1] eqn:E1. destruct (find_die g1 o); [|done]. cbn. intros [= _ <-]. by eapply N.
  - destruct (get_type_name dec g (push s ENUM) e) as [s1 g1] eqn:E1. intros [= _ <-]. by eapply N.
  - done.
Qed.
Print Assumptions C89_entries.

(** *** Cases and refutations *)
Definition int_ : die := Die 1 T_base (Some (lit "int")) (Some 4) None false [].
Definition signs (n : list Z) (sz : Z) : option mtype := if decide (n = lit "int") then Some (BASIC 10) else if decide (n = lit "char") then Some CHAR else None.
Definition to (o : Z) : die := Die 0 T_other (Some (lit "f")) None (Some o) false [].
Definition digit (z : Z) : list Z := [48 + z].

(** [char * names[2][3]], and the bit field [int f : 3] behind five bits. *)
Example C89_case :
  let g := [int_; Die 2 T_base (Some (lit "char")) (Some 1) None false []; Die 3 T_pointer None (Some 8) (Some 2) false [];
            Die 4 T_array None None (Some 3) false [(None, Some 1); (None, Some 2)]] in
  let t := CArray [2; 3] (CPtr (CBase (lit "char") CHAR 1)) in
  repr signs g (type_ref (to 4)) t /\ wf false t /\ ends_in_func t = false /\
  get_mr_type 3 digit signs g stype0 (to 4) = Some (Stype ARRAY STRING NONE (Some (lit "char *")) 8 [2; 3], g) /\
  let m := Member (to 1) None (Some 3) (Some 13) None in
  repr signs g (type_ref (mdie m)) (CBase (lit "int") (BASIC 10) 4) /\ first_bit m (bit_size m) 13 /\
  load_member 3 digit signs g (lit "t") 0 m = Some (Fd (lit "f") false 1 3 5 (Stype BITFIELD (BASIC 10) NONE (Some (lit "int")) 4 []), g).
Proof.
  cbn zeta. split.
  { eapply r_array; [reflexivity|reflexivity| |]. { repeat constructor; cbn; try lia; left; done. }
    eapply r_ptr; [reflexivity|reflexivity|]. eapply r_base; reflexivity. }
  split; [done|]. split; [done|]. split; [vm_compute; reflexivity|]. split; [eapply r_base; reflexivity|]. split; [done|]. vm_compute. reflexivity.
Qed.

(** An array of two arrays of three (by a typedef), or of pointers to such: the dimensions of the inner one replace those of the outer one. *)
Theorem C89_nested_arrays_refuted : exists g d ns ns' t, repr signs g (type_ref d) (CArray ns (CTypedef (lit "row_t") (CArray ns' t))) /\ ns <> ns' /\
  exists s g', get_mr_type 4 digit signs g stype0 d = Some (s, g') /\ mr_type s = ARRAY /\ dim s = ns'.
Proof.
  exists [int_; Die 2 T_array None None (Some 1) false [(None, Some 2)]; Die 3 T_typedef (Some (lit "row_t")) None (Some 2) false []; Die 4 T_array None None (Some 3) false [(None, Some 1)]],
    (to 4), [2], [3], (CBase (lit "int") (BASIC 10) 4).
  split. { eapply r_array; [reflexivity|reflexivity| |]. { repeat constructor; cbn; try lia; left; done. } eapply r_typedef; [reflexivity..|].
    eapply r_array; [reflexivity|reflexivity| |]. { repeat constructor; cbn; try lia; left; done. } eapply r_base; reflexivity. }
  split; [done|]. eexists _, _. split; [vm_compute; reflexivity|]. done.
Qed.
Print Assumptions C89_nested_arrays_refuted.

(** A flexible array member, whose number of elements is not in the debug information and which adds nothing to the structure, gets the dimension 1. *)
Theorem C89_flexible_refuted : exists g d e, type_ref d = Some (off e) /\ find_die g (off e) = Some e /\ tag e = T_array /\ subs e = [(None, None)] /\
  exists s, get_mr_type 3 digit signs g stype0 d = Some (s, g) /\ mr_type s = ARRAY /\ mr_type_aux s = BASIC 10 /\ dim s = [1].
Proof.
  exists [int_; Die 2 T_array None None (Some 1) false [(None, None)]], (to 2), (Die 2 T_array None None (Some 1) false [(None, None)]).
  do 4 (split; [done|]). eexists. split; [vm_compute; reflexivity|]. done.
Qed.
Print Assumptions C89_flexible_refuted.

(** [typedef struct \{...\} * ptr_t]: the structure gets the name of the pointer. *)
Theorem C89_pointer_name_refuted : exists g d k o sz, repr signs g (type_ref d) (CTypedef (lit "ptr_t") (CPtr (CAgg k o None sz))) /\
  exists s g' e, get_mr_type 3 digit signs g stype0 d = Some (s, g') /\ find_die g' o = Some e /\ dname e = Some (lit "ptr_t").
Proof.
  exists [Die 1 T_structure None (Some 4) None false []; Die 2 T_pointer None (Some 8) (Some 1) false []; Die 3 T_typedef (Some (lit "ptr_t")) None (Some 2) false []],
    (to 3), AStruct, 1, (Some 4).
  split. { eapply r_typedef; [reflexivity..|]. eapply r_ptr; [reflexivity..|]. eapply (r_agg _ _ 1 (Die 1 T_structure None (Some 4) None false []) AStruct); done. }
  eexists _, _, _. split; [vm_compute; reflexivity|]. done.
Qed.
Print Assumptions C89_pointer_name_refuted.

(** An array of pointers to arrays of pointers to functions stops the program; so does a qualifier that is not known ([restrict]). *)
Theorem C89_function_refuted : exists g d t, repr signs g (type_ref d) t /\ wf false t /\ forall fuel, get_mr_type fuel digit signs g stype0 d = None.
Proof.
  exists [Die 1 T_subroutine None None None false []; Die 2 T_pointer None None (Some 1) false []; Die 3 T_array None None (Some 2) false [(None, Some 2)]; Die 4 T_pointer None None (Some 3) false []; Die 5 T_array None None (Some 4) false [(None, Some 1)]],
    (to 5), (CArray [2] (CPtr (CArray [3] (CPtr CFunc)))).
  split. { eapply r_array; [reflexivity|reflexivity| |]. { repeat constructor; cbn; try lia; left; done. } eapply r_ptr; [reflexivity..|].
    eapply r_array; [reflexivity|reflexivity| |]. { repeat constructor; cbn; try lia; left; done. } eapply r_ptr; [reflexivity..|]. by eapply r_func. }
  split; [done|]. intros [|[|[|[|[|fuel]]]]]; reflexivity.
Qed.
Print Assumptions C89_function_refuted.
Theorem C89_qualifier_refuted : forall fuel dec sign g s d o e, NoDup (map off g) -> type_ref d = Some o -> e ∈ g -> off e = o -> tag e = T_other ->
  get_mr_type fuel dec sign g s d = None.
Proof.
  intros [|fuel] dec sign g s d o e ND Er He Eo Te; [done|]. cbn [get_mr_type]. rewrite Er. destruct (find_die g o) as [x|] eqn:Fx; [|done]. exfalso.
  destruct (find_off _ _ _ Fx) as [Ex Ix]. apply List.find_some in Fx as [Hx _]. apply elem_of_list_In in Hx.
  apply elem_of_list_lookup in Hx as [i Hi], He as [j Hj]. assert (i = j) as ->.
  { apply (NoDup_lookup _ i j o ND); by rewrite list_lookup_fmap, ?Hi, ?Hj; cbn; congruence. }
  assert (x = e) as -> by congruence. by rewrite Te in Ix.
Qed.
Print Assumptions C89_qualifier_refuted.

(** A bit field counted from the most significant bit of its storage unit without a size of its own: the unit has the size of the type (4 bytes, so
    the field begins at bit 0), the code takes 0. *)
Theorem C89_bit_offset_refuted : exists g m, repr signs g (type_ref (mdie m)) (CBase (lit "int") (BASIC 10) 4) /\
  location m = Some 0 /\ bit_size m = Some 3 /\ bit_offset m = Some 29 /\ 8 * 4 - 3 - 29 = 0 /\
  exists f g', load_member 3 digit signs g (lit "t") 0 m = Some (f, g') /\ 8 * offset f + shift f = 224.
Proof.
  exists [int_], (Member (to 1) (Some 0) (Some 3) None (Some 29)). split; [eapply r_base; reflexivity|]. do 4 (split; [done|]). eexists _, _. split; [vm_compute; reflexivity|]. done.
Qed.
Print Assumptions C89_bit_offset_refuted.
