(** C76: a tree that fits a type is loaded completely (Load.v). *)
From Verif Require Import Base Load LoadSpec LoadSafe LoadInv LoadInv2 LoadPlace LoadRun LoadText LoadRefs LoadTop LoadFits LoadOk LoadOk2 P_Load.
Local Open Scope Z_scope.

Section complete.
Context (env : list td) (leaf : node -> stype -> bool * bool) (alloc : nat -> bool).
Context (nodes : list node) (root : node) (size : Z) (f : fd) (ty : nat -> stype) (off : nat -> Z).
Hypothesis Hw : well_typed env nodes root size f.
Hypothesis Halloc : forall b, alloc b = true.
Hypothesis HT : tree_fits env leaf root ty off f.
Hypothesis HR : refs_fit nodes root ty.
Notation tyn m := (ty (n_idx m)).
Notation offn m := (off (n_idx m)).

Lemma content_fine own s : load_all env leaf alloc root (0%nat, 0) f (start size nodes) = Some (true, s) ->
  PH nodes root ty off own (length (ra s)) s -> content_ok s.
Proof.
  intros Hs P i e c tc num j t d dt E A Hk Er (Hn0 & (e' & E' & Eid) & _) Et At.
  destruct (ph_at _ _ _ _ _ _ _ P _ _ _ _ E A) as (m & h & o & Em & Hh & Hi & _ & _ & Etc).
  destruct (ph_at _ _ _ _ _ _ _ P _ _ _ _ Et At) as (m' & h' & o' & Em' & Hh' & Hi' & _ & _ & Edt).
  assert (m ∈ subtree root) as Hm by exact (inl_in root ty off h m o Hh Hi).
  assert (m' ∈ subtree root) as Hm' by exact (inl_in root ty off h' m' o' Hh' Hi').
  rewrite Edt. destruct HR as [_ HC]. apply (HC m m' Hm Hm'); [by rewrite <- Etc|].
  assert (n_id m' = num) as ->.
  { destruct (ph_node _ _ _ _ _ _ _ P m' Hm') as (e1 & E1 & N1). rewrite Em' in E1. congruence. }
  destruct (placed_entry _ _ _ _ _ _ _ Hw s Hs m c tc Hm) as (e1 & E1 & N1 & _ & Hr); [exists e; by rewrite Em|].
  rewrite Em, E in E1. injection E1 as <-. rewrite Er in Hr. specialize (Hr Hk).
  unfold asks_content. destruct Hr as [Hr|Hr]; unfold string_ref, pointer_ref in Hr; destruct (n_val m) as [z| | |]; try by left.
  - destruct (_ || _); [by left|]. destruct Hr as (x & [= <-] & [[_ ?]|[? [= ->]]]); [done|]. right. by exists z.
  - destruct (n_null m); [by left|]. destruct Hr as (x & [= <-] & [[_ ?]|[? [= ->]]]); [done|]. right. by exists z.
Qed.

(** What was loaded stays when the references are set. *)
Lemma values_kept own s s' : load_all env leaf alloc root (0%nat, 0) f (start size nodes) = Some (true, s) ->
  PH nodes root ty off own (length (ra s)) s -> placed (ra s) root (0%nat, 0) (tyn root) -> set_crossrefs s = Some s' ->
  blocks s' = blocks s /\ forall m a t, m ∈ subtree root -> placed (ra s) m a t ->
    (is_ptr (s_kind t) -> (forall e, ra s !! n_idx m = Some e -> e_ref e = None) -> get_ptr s' a = get_ptr s a) /\
    value_loaded s' m a t.
Proof.
  intros Hs P Hroot Hc. unfold set_crossrefs in Hc. destruct (make_table (ra s)) as [tbl|]; [|done]. cbn [mbind option_bind] in Hc.
  destruct (set_refs_log _ _ _ _ _ _ Hc) as (_ & Hb & l & Hl & F). split; [done|]. intros m a t Hm Hp.
  destruct (placed_head env nodes root size f ty off Hw own _ s m a t P Hm Hp) as (h & o & Hh & Hi & Ho & Ha & Et).
  destruct (placed_entry _ _ _ _ _ _ _ Hw s Hs m a t Hm Hp) as (e & E & En & Ea & Hr).
  pose proof (all_ok env leaf alloc nodes root size f ty off Hw Halloc HT) as Aok.
  assert (H8 : forall x, x ∈ subtree root -> is_ptr (s_kind (tyn x)) -> 8 <= s_size (tyn x)).
  { intros x Hx Hkx. destruct (Aok x Hx) as [_ Ok]. destruct Hkx as [Ek|Ek]; rewrite Ek in Ok; [by destruct Ok|done]. }
  assert (Aw : leaf_kind (s_kind t) -> (is_ptr (s_kind t) -> e_ref e = None) -> Forall (fun x => away x a (s_size t)) l).
  { intros Lk Hno. eapply Forall_impl; [exact F|]. intros x (j & e' & cell & t' & p & -> & E' & A' & K' & R'). unfold away. cbn [st_at st_what width].
    destruct (ph_at _ _ _ _ _ _ _ P _ _ _ _ E' A') as (m' & h' & o' & Em' & Hh' & Hi' & _ & _ & Et').
    pose proof (inl_in root ty off h' m' o' Hh' Hi') as Hm'. destruct (decide (n_idx m = n_idx m')) as [Eq|Ne].
    { exfalso. assert (e' = e) as -> by (rewrite <- Em', <- Eq in E'; congruence). assert (t' = t) as -> by congruence. by apply R', Hno. }
    destruct (decide (cell.1 = a.1)) as [Eb|Nb]; [right|by left].
    destruct (far env leaf alloc nodes root size f ty off Hw Halloc HT own _ s m m' a cell t t' P Hm Hm') as [D|[D|[_ [n D]]]].
    - congruence.
    - done.
    - exists e'. by rewrite Em'.
    - done.
    - by destruct K' as [-> | ->].
    - done.
    - right. lia.
    - left. rewrite Et' in *. pose proof (H8 m' Hm' K'). lia.
    - destruct K'; congruence. }
  assert (Get : is_ptr (s_kind t) -> exists n, blocks s !! a.1 = Some (Some n) /\ 0 <= a.2 /\ a.2 + 8 <= n).
  { intros K. destruct (placed_room _ _ _ _ _ _ _ Hw s Hs m a t Hp K) as (n & N1 & N2 & N3). by exists n. }
  assert (Lf : is_ptr (s_kind t) -> leaf_kind (s_kind t)) by (by intros [-> | ->]).
  split.
  { intros K Hno. destruct (Get K) as (n & N1 & N2 & N3). rewrite (get_ptr_peek s a n N1 N2 N3), (get_ptr_peek s' a n) by (by rewrite ?Hb).
    rewrite Hl. apply (peek_away _ _ _ (s_size t)); [rewrite Et in *; by apply H8|]. apply Aw; [by apply Lf|]. intros _. by apply Hno. }
  assert (Str0 : forall b : nat, own !! b = Some None -> b <> 0%nat /\ b <> a.1).
  { intros b Hown. destruct (placed_head env nodes root size f ty off Hw own _ s root _ _ P (subtree_self root) Hroot) as (h0 & o0 & _ & _ & Ho0 & _).
    cbn in Ho0. split; intros ->; congruence. }
  assert (V : (is_ptr (s_kind t) -> e_ref e = None) -> leaf_kind (s_kind t) -> value_at ty (fun b => own !! b = Some None) (blocks s') (log s') m a).
  { intros Hno Lk. rewrite Hl, Hb. apply (value_mono env leaf alloc Halloc ty off (fun b => own !! b = Some None) _ (blocks s)); [by apply Aok| | |done|done|by eapply (ph_val _ _ _ _ _ _ _ P)].
    - eapply Forall_impl; [exact (Aw Lk Hno)|]. intros x Hx. left. by rewrite <- Et.
    - intros b x Hown Hx Eb. rewrite Forall_forall in F. destruct (F x Hx) as (j & e' & cell & t' & p & -> & E' & A' & _). cbn in Eb.
      destruct (ph_at _ _ _ _ _ _ _ P _ _ _ _ E' A') as (m' & h' & o' & _ & _ & _ & Ho' & _). congruence. }
  unfold value_loaded. unfold value_at in V. rewrite <- Et in V.
  destruct (s_kind t) as [n| | | | | | | | |] eqn:Ek; try done.
  - apply V; [|done]. intros [?|?]; done.
  - apply V; [|done]. intros [?|?]; done.
  - apply V; [|done]. intros [?|?]; done.
  - intros Hnr. destruct (Get ltac:(by right)) as (n & N1 & N2 & N3).
    assert (e_ref e = None \/ n_null m = false /\ exists z, n_val m = VInt z) as Er.
    { destruct (Hr ltac:(by right)) as [Hq|Hq]; unfold string_ref, pointer_ref in Hq; destruct (n_val m) as [z| | |]; try (left; congruence).
      - rewrite Hnr in Hq. destruct (n_null m); cbn in Hq; [left; congruence|]. right. split; [done|by exists z].
      - destruct (n_null m); [left; congruence|]. right. split; [done|by exists z]. }
    rewrite (get_ptr_peek _ _ n); [|by rewrite Hb|done|done]. destruct Er as [Er|[Hnl [z Hz]]].
    + destruct V as [V1 V2]; [done|done|]. destruct (n_null m) eqn:Hnl; [apply V1; by left|]. split.
      * intros Hv. apply V1. by right; right; left.
      * intros x Hx. destruct (V2 eq_refl Hnr x Hx) as (b & Hown & R). exists b. by destruct (Str0 b Hown).
    + rewrite Hnl. split; [congruence|]. intros x [?|?]; congruence.
Qed.
End complete.

(** If the descriptors are consistent, allocations succeed and the tree fits the type,
    the load succeeds, and memory holds what the text says: every node has a place, at
    the offset of its field or element in what is around it; scalars, texts and
    strings are there; a pointer leads to a block of its own with the values given for
    it, a reference to the object it names. *)
Theorem C76_load_complete env leaf alloc nodes root size f ty off :
  well_typed env nodes root size f -> (forall b, alloc b = true) ->
  tree_fits env leaf root ty off f -> refs_fit nodes root ty ->
  exists s (place : nat -> addr),
    load_top env leaf alloc root (0%nat, 0) f (start size nodes) = Some (true, s) /\
    place (n_idx root) = (0%nat, 0) /\
    (forall nd, nd ∈ subtree root ->
       let t := ty (n_idx nd) in let a := place (n_idx nd) in
       inside s a t /\ value_loaded s nd a t /\
       (s_kind t = Struct \/ s_kind t = Array -> forall k, k ∈ n_kids nd -> place (n_idx k) = shift a (off (n_idx k))) /\
       (s_kind t = Pointer -> n_null nd = false -> n_kids nd <> [] ->
          exists b, b <> 0%nat /\ b <> a.1 /\ get_ptr s a = Some (To (b, 0)) /\
            forall k, k ∈ n_kids nd -> place (n_idx k) = (b, off (n_idx k))) /\
       (s_kind t = Pointer -> n_ref nd = None -> n_null nd = true \/ n_kids nd = [] /\ asks_none nd -> get_ptr s a = Some Null) /\
       (is_ptr (s_kind t) -> forall nd', nd' ∈ subtree root -> n_id nd' <> 0 ->
          (forall j m, nodes !! j = Some m -> n_id m = n_id nd' -> S j = n_idx nd') ->
          (asks nd false (n_id nd') -> get_ptr s a = Some (To (place (n_idx nd')))) /\
          (asks nd true (n_id nd') -> asks_none nd' -> get_ptr s a = get_ptr s (place (n_idx nd'))))) /\
    (forall nd nd', nd ∈ subtree root -> nd' ∈ subtree root -> nd <> nd' ->
       let t := ty (n_idx nd) in let t' := ty (n_idx nd') in let a := place (n_idx nd) in let a' := place (n_idx nd') in
       leaf_kind (s_kind t) -> leaf_kind (s_kind t') -> ~ (scalar_kind (s_kind t) /\ scalar_kind (s_kind t')) ->
       a.1 <> a'.1 \/ a.2 + s_size t <= a'.2 \/ a'.2 + s_size t' <= a.2).
Proof.
  intros Hw Halloc HT HR.
  destruct (load_all_ok env leaf alloc nodes root size f ty off Hw Halloc HT) as (own & s & Hs & P & C & Hroot).
  pose proof (one_value_ok env leaf alloc nodes root size f ty off Hw Halloc HT _ _ _ P) as Hone.
  pose proof (content_fine env leaf alloc nodes root size f ty off Hw HR own s Hs P) as Hcont.
  pose proof HR as [Hids _].
  destruct (C43_references env leaf alloc nodes root size f s Hw Hids Hs Hone Hcont) as (s' & Ht & Hra & Hb & Href).
  pose proof Hw as (W1 & W2 & W3 & W4 & W5).
  assert (Hall : forall m, m ∈ subtree root -> exists a t, placed (ra s) m a t).
  { eapply (all_placed env leaf nodes root f ty off HT own s P C). by eexists _, _. }
  set (place := fun j => match ra s !! j with Some e => match e_at e with Some (a, _) => a | None => (0%nat, 0) end | None => (0%nat, 0) end).
  assert (Hpl : forall m a t, placed (ra s) m a t -> place (n_idx m) = a).
  { intros m a t (e & E & A). unfold place. by rewrite E, A. }
  assert (Hat : forall m, m ∈ subtree root -> placed (ra s) m (place (n_idx m)) (ty (n_idx m))).
  { intros m Hm. destruct (Hall m Hm) as (a & t & Hp). rewrite (Hpl _ _ _ Hp).
    destruct (placed_head env nodes root size f ty off Hw own _ s m a t P Hm Hp) as (_ & _ & _ & _ & _ & _ & <-). done. }
  assert (Hcr : set_crossrefs s = Some s').
  { unfold load_top in Ht. rewrite Hs in Ht. cbn [mbind option_bind] in Ht. destruct (set_crossrefs s) as [x|]; [|done].
    cbn [mbind option_bind] in Ht. congruence. }
  destruct (values_kept env leaf alloc nodes root size f ty off Hw Halloc HT own s s' Hs P Hroot Hcr) as [_ Hkept].
  exists s', place. split; [done|]. split; [by eapply Hpl|]. split.
  - intros nd Hnd t a. pose proof (Hat nd Hnd) as Hp. destruct (Hkept nd a t Hnd Hp) as [Hsame Hval].
    assert (Hkid : forall k, k ∈ n_kids nd -> k ∈ subtree root).
    { intros k Hin. eapply subtree_trans; [exact Hnd|]. exact (subtree_kid _ _ _ Hin (subtree_self k)). }
    split; [|split; [done|split; [|split; [|split]]]].
    + destruct (placed_inside _ _ _ _ _ _ _ Hw s Hs nd a t Hp) as [_ Hin]. unfold inside. by rewrite Hb.
    + intros Hk k Hin.
      by destruct (placed_inside_kid env alloc nodes root size f ty off Hw Halloc own _ s nd a t k _ _ P Hnd Hp Hk Hin (Hat k (Hkid k Hin))) as [? _].
    + intros Hk Hnn Hnk. destruct HT as (_ & _ & _ & Hfit). specialize (Hfit nd Hnd). unfold fits in Hfit. fold t in Hfit. rewrite Hk in Hfit.
      destruct Hfit as [?|(_ & Hno & _ & El)]; [done|].
      destruct (pointer_followed _ _ _ _ _ _ _ Hw s Hs nd a t Hone Hnd Hp Hk) as (e & E & En & Hf & Hpr).
      unfold followed in Hf. rewrite En, Hnn in Hf.
      rewrite (asks_none_refs nd _ Hno (or_intror Hpr)) in Hf. cbn [orb] in Hf.
      destruct (n_kids nd) as [|k0 ks] eqn:Ekd; [done|]. rewrite <- Ekd in *.
      destruct Hf as (b & B1 & B2 & Hh & _ & Hks). exists b. split; [done|]. split; [done|]. split.
      * destruct (Href nd a t Hnd Hp (or_introl Hk)) as (Hq & _). rewrite (Hq Hno).
        destruct (placed_room _ _ _ _ _ _ _ Hw s Hs nd a t Hp (or_introl Hk)) as (n & N1 & N2 & N3). by apply (holds_get _ _ n).
      * intros k Hin. apply elem_of_list_lookup in Hin as [x Hx]. rewrite (Hpl _ _ _ (Hks x k Hx)).
        destruct (El x k Hx) as (_ & _ & ->). done.
    + intros Hk Hnr Hor. destruct (pointer_followed _ _ _ _ _ _ _ Hw s Hs nd a t Hone Hnd Hp Hk) as (e & E & En & Hf & Hpr).
      assert (e_ref e = None) as Er.
      { destruct Hor as [Hnl|[_ Hno]]; [|by apply (asks_none_refs nd); auto]. unfold pointer_ref in Hpr. rewrite Hnl in Hpr. destruct (n_val nd); congruence. }
      rewrite Hsame; [|by left|]. 
      2: { intros e' E'. congruence. }
      destruct (placed_room _ _ _ _ _ _ _ Hw s Hs nd a t Hp (or_introl Hk)) as (n & N1 & N2 & N3). apply (holds_get _ _ n); [done|done|done|].
      unfold followed in Hf. rewrite En, Er in Hf. destruct Hor as [Hnl|[Hnk _]]; [rewrite Hnl in Hf; done|]. rewrite Hnk in Hf. by rewrite orb_true_r in Hf.
    + intros Hk nd' Hnd' Hn0 Hu. destruct (Href nd a t Hnd Hp Hk) as (_ & _ & Hq).
      destruct (Hq (n_id nd') nd' (place (n_idx nd')) (ty (n_idx nd')) Hnd' eq_refl Hn0 Hu (Hat nd' Hnd')) as [Q1 Q2]. split; [done|].
      intros Hask Hno. rewrite (Q2 Hask Hno). symmetry.
      assert (is_ptr (s_kind (ty (n_idx nd')))) as Hk'.
      { destruct HR as [_ HC]. apply (HC nd nd' Hnd Hnd' Hk). destruct Hask as (_ & [? ?] & [[? _]|[_ [Hz Hv]]]); [by left|right].
        exists (- n_id nd'). split; [done|]. split; [lia|]. rewrite Z.opp_involutive, Z.mod_small by lia. done. }
      destruct (Href nd' _ _ Hnd' (Hat nd' Hnd') Hk') as (Hq' & _). by apply Hq'.
  - intros nd nd' Hnd Hnd' Ne t t' a a' Lk Lk' Ns. destruct (decide (a.1 = a'.1)) as [Eb|?]; [right|by left].
    destruct (far env leaf alloc nodes root size f ty off Hw Halloc HT own _ s nd nd' a a' t t' P Hnd Hnd' Ne (Hat nd Hnd) (Hat nd' Hnd') Lk Lk' Eb) as [?|[?|?]];
      [by left|by right|done].
Qed.
Print Assumptions C76_load_complete.

(** The tree of P_Load.v fits: structures, a matrix, texts, a pointer and references. *)
Definition fit_row : stype := elem_ty ex_env ex_m 2.
Definition fit_cell : stype := elem_ty ex_env fit_row 3.
Definition fit_next : stype := f_ty (target_fd ex_env ex_next).
Definition fit_types : list stype :=
  [ex_int; f_ty ex_fd; ex_int; ex_m; fit_row; fit_cell; fit_cell; fit_cell; fit_row; fit_cell; fit_cell; ex_buf; ex_name; ex_next; fit_next; ex_next; ex_name].
Definition fit_ty (j : nat) : stype := default ex_int (fit_types !! j).
Definition fit_off (j : nat) : Z := default 0 ([0; 0; 0; 24; 0; 0; 4; 8; 12; 0; 4; 48; 16; 8; 0; 8; 16] !! j).
Ltac at_index H := vm_compute in H; first [discriminate H|injection H as <-].
Example C76_load_complete_case :
  well_typed ex_env ex_nodes ex_root 56 ex_fd /\ (forall b, ex_alloc b = true) /\
  tree_fits ex_env ex_leaf ex_root fit_ty fit_off ex_fd /\ refs_fit ex_nodes ex_root fit_ty.
Proof.
  split; [exact ex_well_typed|]. split; [done|]. split.
  - split; [done|]. split; [done|]. split; [done|].
    assert (Hst : forall is ks, length is = length ks ->
      (forall x k, ks !! x = Some k -> exists i g, is !! x = Some i /\ ex_fields !! i = Some g /\ suits g k /\
          field_for ex_fields (n_fd k) (match x with O => None | S y => is !! y end) i g /\
          fit_ty (n_idx k) = f_ty g /\ fit_off (n_idx k) = f_off g) -> NoDup is ->
      exists d is, get_td ex_env (Some 0%nat) = Some d /\ length is = length ks /\ NoDup is /\
      forall x k, ks !! x = Some k -> exists i g, is !! x = Some i /\ t_fields d !! i = Some g /\ suits g k /\
          field_for (t_fields d) (n_fd k) (match x with O => None | S y => is !! y end) i g /\
          fit_ty (n_idx k) = f_ty g /\ fit_off (n_idx k) = f_off g).
    { intros is ks Hl H Hn. exists (Td Struct 56 ex_fields), is. done. }
    intros m Hm. change (m ∈ ex_nodes) in Hm. cbn in Hm. each Hm.
    + apply (Hst [0; 3; 4; 2; 1]%nat); [done| |apply (bool_decide_unpack (NoDup _)); by vm_compute].
      intros x k Hx. do 5 (try (destruct x as [|x]; [cbn in Hx; injection Hx as <-|])); [| | | | |done]; cbn [lookup list_lookup].
      all: eexists _, _; split; [reflexivity|]; split; [reflexivity|]; split; [cbn; first [exact I|split; [done|]; by repeat (first [done|right])]|]; split; [|split; reflexivity].
      * right. split; [done|]. intros n t. done.
      * left. exists 4%N, None. split; [done|]. split; [done|]. intros j h Hj Hh. do 3 (destruct j as [|j]; [at_index Hh; done|]). lia.
      * right. split; [done|]. intros n t. done.
      * left. exists 3%N, None. split; [done|]. split; [done|]. intros j h Hj Hh. do 2 (destruct j as [|j]; [at_index Hh; done|]). lia.
      * left. exists 2%N, None. split; [done|]. split; [done|]. intros j h Hj Hh. do 1 (destruct j as [|j]; [at_index Hh; done|]). lia.
    + done.
    + exists 2. split; [done|]. split; [done|]. split; [done|]. intros x k Hx. do 2 (destruct x as [|x]; [cbn in Hx; injection Hx as <-; done|]). done.
    + exists 3. split; [done|]. split; [done|]. split; [done|]. intros x k Hx. do 3 (destruct x as [|x]; [cbn in Hx; injection Hx as <-; done|]). done.
    + done.
    + done.
    + done.
    + exists 3. split; [done|]. split; [done|]. split; [done|]. intros x k Hx. do 2 (destruct x as [|x]; [cbn in Hx; injection Hx as <-; done|]). done.
    + done.
    + done.
    + split; [done|]. eexists. left. done.
    + split; [done|]. by right; right.
    + right. split; [done|]. split; [done|]. split; [done|]. intros x k Hx. destruct x as [|x]; [cbn in Hx; injection Hx as <-; done|done].
    + apply (Hst [1; 2]%nat); [done| |apply (bool_decide_unpack (NoDup _)); by vm_compute].
      intros x k Hx. do 2 (try (destruct x as [|x]; [cbn in Hx; injection Hx as <-|])); [| |done]; cbn [lookup list_lookup].
      all: eexists _, _; split; [reflexivity|]; split; [reflexivity|]; split; [cbn; first [exact I|split; [done|]; by repeat (first [done|right])]|]; split; [|split; reflexivity].
      * left. exists 2%N, None. split; [done|]. split; [done|]. intros j h Hj Hh. do 1 (destruct j as [|j]; [at_index Hh; done|]). lia.
      * right. split; [done|]. intros n t. done.
    + by left.
    + split; [done|]. by right; left.
  - split; [intros m Hm; cbn in Hm; each Hm; cbn; lia|]. intros nd nd' Hnd Hnd' _ Hc. change (nd ∈ ex_nodes) in Hnd. change (nd' ∈ ex_nodes) in Hnd'.
    assert (n_id nd' = 2) as E.
    { destruct Hc as [Hc|(z & Hz & Hlt & _)]; cbn in Hnd; each Hnd; try discriminate Hc; try discriminate Hz.
      - injection Hc as <-. done.
      - injection Hz as <-. lia. }
    cbn in Hnd'. each Hnd'; try discriminate E. by right.
Qed.
