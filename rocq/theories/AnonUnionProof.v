From Verif Require Import Base AnonUnion.
Local Open Scope nat_scope.

(** *** Well nested field lists *)
(** An ordinary field, or a union: its opening field, its members, its end. *)
Inductive item := Fld (f : nat) | Un (u : nat) (its : list item) (c : nat).

(** The fields as they are written down. *)
Fixpoint flat1 (x : item) : list nat :=
  match x with Fld f => [f] | Un u its c => u :: concat (map flat1 its) ++ [c] end.
Definition flat (l : list item) : list nat := concat (map flat1 l).
Definition head1 (x : item) : nat := match x with Fld f => f | Un u _ _ => u end.
Definition heads (l : list item) : list nat := map head1 l.

Fixpoint wf1 (k : nat -> kind) (x : item) : Prop :=
  match x with
  | Fld f => k f = Plain
  | Un u its c => k u = Open /\ k c = Close /\ fold_right and True (map (wf1 k) its)
  end.
Definition wf (k : nat -> kind) (l : list item) : Prop := fold_right and True (map (wf1 k) l).

(** Offset of the union from those of its members: the last one that is not 0. *)
Definition last_nz (of_ : nat -> nat) (d : nat) (l : list nat) : nat :=
  fold_left (fun d f => if Nat.eqb (of_ f) 0 then d else of_ f) l d.
Definition max_sz (sz_ : nat -> nat) (l : list nat) : nat := foldr (fun f m => Nat.max (sz_ f) m) 0 l.

(** All unions, inner ones first. *)
Fixpoint unions1 (x : item) : list (nat * list item * nat) :=
  match x with Fld _ => [] | Un u its c => concat (map unions1 its) ++ [(u, its, c)] end.
Definition unions (l : list item) : list (nat * list item * nat) := concat (map unions1 l).

(** The array behind the fields of the struct. *)
Fixpoint lay1 (x : item) : list (option nat) :=
  match x with
  | Fld _ => []
  | Un _ its _ => map Some (heads its) ++ [None] ++
      (fix lay l := match l with [] => [] | y :: ys => lay ys ++ lay1 y end) its
  end.
Fixpoint lay (l : list item) : list (option nat) := match l with [] => [] | y :: ys => lay ys ++ lay1 y end.
Lemma lay1_Un u its c : lay1 (Un u its c) = map Some (heads its) ++ [None] ++ lay its.
Proof. reflexivity. Qed.

(** The types that are added; [base]: where the fields start. *)
Fixpoint tys1 (sz_ : nat -> nat) (x : item) (sub : nat) (name : list nat) : list td :=
  match x with
  | Fld _ => []
  | Un u its c =>
    (fix tys l i := match l with
                    | [] => []
                    | y :: ys => tys1 sz_ y (sub + i + 1 + length (flat ys) + 1) (name ++ [i]) ++ tys ys (i + 1)
                    end) its 0 ++ [Td u name sub (length its) (max_sz sz_ (flat its))]
  end.
Fixpoint tys (sz_ : nat -> nat) (base : nat) (name : list nat) (l : list item) (i : nat) : list td :=
  match l with
  | [] => []
  | y :: ys => tys1 sz_ y (base + i + 1 + length (flat ys) + 1) (name ++ [i]) ++ tys sz_ base name ys (i + 1)
  end.
Lemma tys1_Un sz_ u its c sub name :
  tys1 sz_ (Un u its c) sub name = tys sz_ sub name its 0 ++ [Td u name sub (length its) (max_sz sz_ (flat its))].
Proof.
  cbn [tys1]. f_equal. revert its. enough (H : forall its i,
    (fix tys l i := match l with
                    | [] => []
                    | y :: ys => tys1 sz_ y (sub + i + 1 + length (flat ys) + 1) (name ++ [i]) ++ tys ys (i + 1)
                    end) its i = tys sz_ sub name its i) by (intros its; apply H).
  induction its as [|y ys IH]; intros i; [done|]. cbn [tys]. by rewrite IH.
Qed.

Lemma flat_cons x l : flat (x :: l) = flat1 x ++ flat l. Proof. reflexivity. Qed.
Lemma flat1_Un u its c : flat1 (Un u its c) = u :: flat its ++ [c]. Proof. reflexivity. Qed.
Lemma unions_cons x l : unions (x :: l) = unions1 x ++ unions l. Proof. reflexivity. Qed.
Lemma unions1_Un u its c : unions1 (Un u its c) = unions its ++ [(u, its, c)]. Proof. reflexivity. Qed.
Lemma wf_cons k x l : wf k (x :: l) <-> wf1 k x /\ wf k l. Proof. reflexivity. Qed.
Lemma wf1_Un k u its c : wf1 k (Un u its c) <-> k u = Open /\ k c = Close /\ wf k its. Proof. reflexivity. Qed.

(** Induction over lists of items. *)
Lemma items_ind (P : list item -> Prop) :
  P [] -> (forall f l, P l -> P (Fld f :: l)) -> (forall u its c l, P its -> P l -> P (Un u its c :: l)) ->
  forall l, P l.
Proof.
  intros H0 H1 H2 l. remember (length (flat l)) as n eqn:En.
  revert l En. induction n as [n IH] using lt_wf_ind. intros l ->. destruct l as [|[f|u its c] l]; [done|..].
  - apply H1. apply (IH (length (flat l))); [|done]. rewrite flat_cons, app_length. cbn. lia.
  - rewrite flat_cons, flat1_Un in IH. cbn [length] in IH. rewrite !app_length in IH. cbn [app length] in IH.
    rewrite app_length in IH. apply H2; eapply IH; try reflexivity; cbn; lia.
Qed.

Lemma head_in_flat u l : u ∈ heads l -> u ∈ flat l.
Proof.
  intros H. apply elem_of_list_fmap in H as (x & -> & H). unfold flat.
  apply elem_of_list_In, in_concat. exists (flat1 x). split.
  - apply in_map. by apply elem_of_list_In.
  - destruct x; cbn; by left.
Qed.
Lemma union_in_flat l u its c : (u, its, c) ∈ unions l -> u ∈ flat l /\ c ∈ flat l /\ flat its ⊆ flat l.
Proof.
  revert u its c. induction l as [|f l IH|v jts d l IH1 IH2] using items_ind; intros u its c H.
  - by apply elem_of_nil in H.
  - rewrite unions_cons in H. cbn [unions1 app] in H. apply IH in H as (Ha & Hb & Hc). rewrite flat_cons. cbn [flat1 app].
    split; [by right|]. split; [by right|]. intros x Hx. right. by apply Hc.
  - rewrite unions_cons, unions1_Un, !elem_of_app, elem_of_list_singleton in H. rewrite flat_cons, flat1_Un.
    destruct H as [[H|[= -> -> ->]]|H].
    + apply IH1 in H as (Ha & Hb & Hc). split; [rewrite elem_of_app, elem_of_cons, elem_of_app; auto|].
      split; [rewrite elem_of_app, elem_of_cons, elem_of_app; auto|]. intros x Hx.
      rewrite elem_of_app, elem_of_cons, elem_of_app. left. right. left. by apply Hc.
    + split; [rewrite elem_of_app, elem_of_cons; auto|].
      split; [rewrite elem_of_app, elem_of_cons, elem_of_app, elem_of_list_singleton; auto|].
      intros x Hx. rewrite elem_of_app, elem_of_cons, elem_of_app. auto.
    + apply IH2 in H as (Ha & Hb & Hc). split; [rewrite elem_of_app; auto|]. split; [rewrite elem_of_app; auto|].
      intros x Hx. rewrite elem_of_app. auto.
Qed.

Lemma lay_length l : length l + length (lay l) = length (flat l).
Proof.
  induction l as [|f l IH|u its c l IH1 IH2] using items_ind; [done|..].
  - cbn [lay lay1]. rewrite app_nil_r, flat_cons. cbn. lia.
  - cbn [lay]. rewrite lay1_Un, flat_cons, flat1_Un. unfold heads. cbn [length app].
    repeat first [rewrite app_length | rewrite map_length | progress cbn [length app]]. lia.
Qed.

(** *** The members of a union *)
Lemma upd_eq f x v : upd f x v x = v.
Proof. unfold upd. by rewrite Nat.eqb_refl. Qed.
Lemma upd_ne f x v y : y <> x -> upd f x v y = f y.
Proof. intros H. unfold upd. by destruct (Nat.eqb_spec y x). Qed.

Lemma last_nz_ext of1 of2 d l : (forall x, x ∈ l -> of1 x = of2 x) -> last_nz of1 d l = last_nz of2 d l.
Proof.
  revert d. induction l as [|f l IH]; intros d H; [done|]. cbn. rewrite (H f) by (by left).
  apply IH. intros x Hx. apply H. by right.
Qed.

Lemma members_ok l u of_ sz_ size :
  NoDup l -> u ∉ l ->
  exists of', members (map Some l) u of_ sz_ size = Some (of', Nat.max size (max_sz sz_ l)) /\
    of' u = last_nz of_ (of_ u) l /\ (forall x, x ∈ l -> of' x = 0) /\ (forall x, x ∉ l -> x <> u -> of' x = of_ x).
Proof.
  intros Hnd. revert of_ size. induction Hnd as [|f l Hf Hnd IH]; intros of_ size Hu.
  - exists of_. cbn. rewrite Nat.max_0_r. split; [done|]. split; [done|]. split; [|done]. intros x Hx. by apply elem_of_nil in Hx.
  - apply not_elem_of_cons in Hu as [Huf Hu]. cbn [map members].
    set (o1 := upd (if Nat.eqb (of_ f) 0 then of_ else upd of_ u (of_ f)) f 0).
    destruct (IH o1 (if size <? sz_ f then sz_ f else size) Hu) as (of' & E & E1 & E2 & E3).
    exists of'. split; [|split; [|split]].
    + rewrite E. f_equal. f_equal. cbn [max_sz foldr]. fold (max_sz sz_ l).
      destruct (Nat.ltb_spec size (sz_ f)); lia.
    + rewrite E1. cbn [last_nz fold_left]. fold (last_nz of_ (if Nat.eqb (of_ f) 0 then of_ u else of_ f) l).
      rewrite (last_nz_ext o1 of_).
      * f_equal. unfold o1. rewrite upd_ne by done. destruct (Nat.eqb (of_ f) 0); [done|]. by rewrite upd_eq.
      * intros x Hx. unfold o1. rewrite upd_ne by congruence. destruct (Nat.eqb (of_ f) 0); [done|]. rewrite upd_ne; [done|congruence].
    + intros x Hx. apply elem_of_cons in Hx as [->|Hx]; [|by apply E2].
      rewrite E3 by done. unfold o1. by rewrite upd_eq.
    + intros x Hx Hxu. apply not_elem_of_cons in Hx as [Hxf Hx]. rewrite E3 by done. unfold o1. rewrite upd_ne by done.
      destruct (Nat.eqb (of_ f) 0); [done|]. by rewrite upd_ne.
Qed.

(** *** The end of a union *)
Lemma field_ok a i f : a !! i = Some (Some f) -> field a i = Some f.
Proof. intros H. unfold field. by rewrite (rd_lu _ _ _ H). Qed.

Section find.
Context (k : nat -> kind).
Lemma find_end_items l m a base count j o rest :
  wf k l -> 1 <= o -> j + length (flat l) <= count -> drop (base + j) a = map Some (flat l) ++ rest ->
  find_end k (length (flat l) + m) a base count j o = find_end k m a base count (j + length (flat l)) o.
Proof.
  revert m j o rest. induction l as [|f l IH|u its c l IH1 IH2] using items_ind; intros m j o rest Hw Ho Hc Hd.
  - cbn. by rewrite Nat.add_0_r.
  - apply wf_cons in Hw as [Hf Hw]. cbn in Hf. rewrite flat_cons in *. cbn [flat1 app length map Nat.add] in *.
    cbn [find_end]. rewrite (proj2 (Nat.ltb_lt _ _)) by lia.
    rewrite (field_ok _ _ f).
    2:{ rewrite <- (Nat.add_0_r (base + j)), <- lookup_drop, Hd. done. }
    cbn [mbind option_bind]. rewrite Hf. rewrite (IH m (j + 1) o rest); [|done|done|lia|].
    + f_equal. lia.
    + rewrite <- drop_drop with (n2 := 1) || idtac. replace (base + (j + 1)) with (base + j + 1) by lia.
      rewrite <- drop_drop, Hd. done.
  - apply wf_cons in Hw as [Hf Hw]. apply wf1_Un in Hf as (Hu & Hcl & Hits). rewrite flat_cons, flat1_Un in *.
    cbn [app length map Nat.add] in *. rewrite !app_length in *. cbn [length] in *.
    cbn [find_end]. rewrite (proj2 (Nat.ltb_lt _ _)) by lia.
    rewrite (field_ok _ _ u).
    2:{ rewrite <- (Nat.add_0_r (base + j)), <- lookup_drop, Hd. done. }
    cbn [mbind option_bind]. rewrite Hu.
    assert (Hd1 : drop (base + (j + 1)) a = map Some (flat its) ++ Some c :: map Some (flat l) ++ rest).
    { replace (base + (j + 1)) with (base + j + 1) by lia. rewrite <- drop_drop, Hd. cbn.
      rewrite !map_app. cbn. by rewrite <- !app_assoc. }
    replace (length (flat its) + 1 + length (flat l) + m) with (length (flat its) + S (length (flat l) + m)) by lia.
    rewrite (IH1 (S (length (flat l) + m)) (j + 1) (o + 1) (Some c :: map Some (flat l) ++ rest)) by (done || lia).
    cbn [find_end]. rewrite (proj2 (Nat.ltb_lt _ _)) by lia.
    assert (Hd2 : drop (base + (j + 1 + length (flat its))) a = Some c :: map Some (flat l) ++ rest).
    { replace (base + (j + 1 + length (flat its))) with (base + (j + 1) + length (flat its)) by lia.
      rewrite <- drop_drop, Hd1. rewrite drop_app_alt; [done|by rewrite map_length]. }
    rewrite (field_ok _ _ c).
    2:{ rewrite <- (Nat.add_0_r (base + (j + 1 + length (flat its)))), <- lookup_drop, Hd2. done. }
    cbn [mbind option_bind]. rewrite Hcl.
    destruct (Nat.eqb_spec (o + 1 - 1) 0); [lia|].
    replace (o + 1 - 1) with o by lia.
    rewrite (IH2 m (j + 1 + length (flat its) + 1) o rest); [|done|done|lia|].
    + f_equal. lia.
    + replace (base + (j + 1 + length (flat its) + 1)) with (base + (j + 1 + length (flat its)) + 1) by lia.
      rewrite <- drop_drop, Hd2. done.
Qed.

Lemma find_end_union its c a base count j rest m :
  wf k its -> k c = Close -> j + length (flat its) < count ->
  drop (base + j) a = map Some (flat its) ++ Some c :: rest -> length (flat its) < m ->
  find_end k m a base count j 1 = Some (j + length (flat its)).
Proof.
  intros Hw Hc Hl Hd Hm. replace m with (length (flat its) + S (m - length (flat its) - 1)) by lia.
  rewrite (find_end_items its _ a base count j 1 (Some c :: rest)) by (done || lia).
  cbn [find_end]. rewrite (proj2 (Nat.ltb_lt _ _)) by lia.
  rewrite (field_ok _ _ c).
  2:{ replace (base + (j + length (flat its))) with (base + j + length (flat its)) by lia.
      rewrite <- (Nat.add_0_r (base + j + length (flat its))), <- lookup_drop, <- drop_drop, Hd.
      rewrite drop_app_alt; [done|by rewrite map_length]. }
  cbn [mbind option_bind]. by rewrite Hc.
Qed.
End find.

(** *** Copies *)
Lemma copy_out_ok x y z i : i = length x -> copy_out (x ++ y ++ z) i (length y) = Some y.
Proof.
  intros ->. unfold copy_out. rewrite (proj2 (Nat.leb_le _ _)) by (rewrite !app_length; lia).
  rewrite drop_app. by rewrite take_app.
Qed.
Lemma copy_in_ok x y z b i : i = length x -> length b = length y -> copy_in (x ++ y ++ z) i b = Some (x ++ b ++ z).
Proof.
  intros -> Hb. unfold copy_in. rewrite (proj2 (Nat.leb_le _ _)) by (rewrite !app_length; lia).
  rewrite take_app. do 3 f_equal. rewrite <- drop_drop, drop_app, Hb. by rewrite drop_app.
Qed.
Lemma count_ok pre dn l post n :
  length l < n ->
  count_fields n (pre ++ map Some dn ++ map Some l ++ None :: post) (length pre) (length dn) = Some (length dn + length l).
Proof.
  revert dn n. induction l as [|f l IH]; intros dn n Hn; (destruct n as [|n]; [cbn in Hn; lia|]); cbn [count_fields].
  - cbn [map app]. rewrite (rd_lu _ _ None) by (rewrite app_assoc; apply list_lookup_middle; by rewrite app_length, map_length).
    cbn. by rewrite Nat.add_0_r.
  - cbn [map app length]. rewrite (rd_lu _ _ (Some f)) by (rewrite app_assoc; apply list_lookup_middle; by rewrite app_length, map_length).
    cbn [mbind option_bind]. cbn in Hn. specialize (IH (dn ++ [f]) n ltac:(lia)).
    rewrite map_app, app_length in IH. cbn in IH. rewrite <- app_assoc in IH. cbn in IH. rewrite IH. f_equal. lia.
Qed.

(** *** The extraction *)
Section extract.
Context (k : nat -> kind).

Definition result (s s' : state) (base : nat) (name : list nat) (i : nat) (l : list item) : Prop :=
  types s' = types s ++ tys (sz s) base name l i /\
  (forall x, x ∉ flat l -> off s' x = off s x) /\
  (forall f, Fld f ∈ l -> off s' f = off s f) /\
  (forall u its c, Un u its c ∈ l ->
     off s' u = last_nz (off s) (off s u) (flat its) /\ (forall x, x ∈ flat its -> off s' x = 0) /\ off s' c = off s c) /\
  (forall u its c, (u, its, c) ∈ unions l -> sz s' u = max_sz (sz s) (flat its) /\ meta s' u = meta s c) /\
  (forall x, (forall its c, (x, its, c) ∉ unions l) -> sz s' x = sz s x /\ meta s' x = meta s x).

Lemma max_sz_ext sz1 sz2 l : (forall x, x ∈ l -> sz1 x = sz2 x) -> max_sz sz1 l = max_sz sz2 l.
Proof. intros H. induction l as [|f l IH]; [done|]. cbn. rewrite (H f) by (by left). f_equal. apply IH. intros x Hx. apply H. by right. Qed.
Lemma tys_ext sz1 sz2 l : forall base name i, (forall x, x ∈ flat l -> sz1 x = sz2 x) -> tys sz1 base name l i = tys sz2 base name l i.
Proof.
  induction l as [|f l IH|u its c l IH1 IH2] using items_ind; intros base name i H; [done|..].
  - cbn [tys tys1]. f_equal. apply IH. intros x Hx. apply H. rewrite flat_cons, elem_of_app. by right.
  - cbn [tys]. rewrite !tys1_Un.
    assert (H' : forall x, x ∈ flat its -> sz1 x = sz2 x).
    { intros x Hx. apply H. rewrite flat_cons, flat1_Un, elem_of_app, elem_of_cons, elem_of_app. auto. }
    rewrite (IH1 _ _ _ H'), (IH2 base name (i + 1)), (max_sz_ext sz1 sz2 (flat its)); [done|done|].
    intros x Hx. apply H. rewrite flat_cons, elem_of_app. by right.
Qed.

Lemma extract_ok fuel : forall l s pre dn post base name count i,
  length (flat l) < fuel -> wf k l -> NoDup (flat l) ->
  arr s = pre ++ map Some dn ++ map Some (flat l) ++ None :: post ->
  base = length pre -> count = length dn + length (flat l) -> i = length dn ->
  exists s', extract k fuel s base name count i = Some (s', length dn + length l, true) /\
    arr s' = pre ++ map Some dn ++ map Some (heads l) ++ None :: lay l ++ post /\
    result s s' base name i l.
Proof.
  induction fuel as [|fuel IH]; [lia|]. intros l s pre dn post base name count i Hf Hw Hnd Ha Hb Hcnt Hi.
  cbn [extract]. destruct l as [|x l].
  { cbn in Hcnt. rewrite (proj2 (Nat.ltb_ge i count)) by lia. exists s. cbn [length].
    split; [do 3 f_equal; lia|]. split; [exact Ha|].
    split; [cbn; by rewrite app_nil_r|]. split; [done|]. split; [intros f Hx; by apply elem_of_nil in Hx|].
    split; [intros u its c Hx; by apply elem_of_nil in Hx|]. split; [intros u its c Hx; by apply elem_of_nil in Hx|done]. }
  apply wf_cons in Hw as [Hw1 Hw]. rewrite flat_cons in Hnd, Hf, Ha, Hcnt.
  apply NoDup_app in Hnd as (Hnd1 & Hdisj & Hnd). rewrite app_length in Hf, Hcnt.
  assert (Hlt : (i <? count) = true) by (apply Nat.ltb_lt; destruct x; cbn in Hcnt; lia). rewrite Hlt.
  destruct x as [f|u its c].
  - (* ordinary field *)
    cbn in Hw1. cbn [flat1 length map app] in *.
    rewrite (field_ok _ _ f) by (rewrite Ha, app_assoc; apply list_lookup_middle; rewrite app_length, map_length; lia).
    cbn [mbind option_bind]. rewrite Hw1.
    destruct (IH l s pre (dn ++ [f]) post base name count (i + 1)) as (s' & E & Ea & (R1 & R2 & R3 & R4 & R5 & R6)); try done.
    + lia.
    + rewrite Ha, map_app. cbn. by rewrite <- app_assoc.
    + rewrite app_length. cbn. lia.
    + rewrite app_length. cbn. lia.
    + exists s'. split; [rewrite E; do 3 f_equal; rewrite app_length; cbn; lia|].
      split; [rewrite Ea, map_app; cbn [heads map head1 lay lay1]; rewrite <- app_assoc, app_nil_r; done|].
      assert (Hfl : f ∉ flat l) by (apply Hdisj; by left).
      split; [cbn [tys tys1 app]; exact R1|].
      split; [intros y Hy; apply R2; rewrite flat_cons in Hy; cbn in Hy; by apply not_elem_of_cons in Hy as [_ Hy]|].
      split; [intros g Hg; apply elem_of_cons in Hg as [[= ->]|Hg]; [by apply R2|by apply R3]|].
      split; [intros u its c Hu; apply elem_of_cons in Hu as [[=]|Hu]; by apply (R4 u its c)|].
      split; [intros u its c Hu; by apply R5|]. intros y Hy. by apply R6.
  - (* union *)
    apply wf1_Un in Hw1 as (Hu & Hcl & Hits). rewrite flat1_Un in *. cbn [length map app] in *.
    rewrite app_length in Hf, Hcnt. cbn [length] in Hf, Hcnt.
    apply NoDup_cons in Hnd1 as [Hu1 Hnd1]. apply NoDup_app in Hnd1 as (Hndi & Hdc & _).
    assert (Hui : u ∉ flat its) by (intros H; apply Hu1; rewrite elem_of_app; auto).
    assert (Huc : u <> c) by (intros ->; apply Hu1; rewrite elem_of_app, elem_of_list_singleton; auto).
    assert (Hci : c ∉ flat its) by (intros H; apply (Hdc c H); by apply elem_of_list_singleton).
    assert (Hul : u ∉ flat l) by (apply Hdisj; by left).
    assert (Hcf : c ∉ flat l) by (apply Hdisj; right; rewrite elem_of_app, elem_of_list_singleton; auto).
    assert (Hil : forall y, y ∈ flat its -> y ∉ flat l) by (intros y Hy; apply Hdisj; right; rewrite elem_of_app; auto).
    rewrite (field_ok _ _ u) by (rewrite Ha, app_assoc; apply list_lookup_middle; rewrite app_length, map_length; lia).
    cbn [mbind option_bind]. rewrite Hu.
    assert (Ha' : arr s = (pre ++ map Some dn ++ [Some u]) ++ map Some (flat its) ++ Some c :: map Some (flat l) ++ None :: post).
    { rewrite Ha, !map_app, <- !app_assoc. done. }
    assert (Hp : length (pre ++ map Some dn ++ [Some u]) = base + i + 1) by (rewrite !app_length, map_length; cbn; lia).
    rewrite (find_end_union k its c _ base count (i + 1) (map Some (flat l) ++ None :: post)); [|done|done|lia| |lia].
    2:{ rewrite Ha'. replace (base + (i + 1)) with (base + i + 1) by lia. rewrite <- Hp. by rewrite drop_app. }
    cbn [mbind option_bind]. rewrite (proj2 (Nat.leb_gt _ _)) by lia.
    replace (i + 1 + length (flat its) - i) with (length (flat its) + 1) by lia.
    replace (count - (i + 1 + length (flat its))) with (length (flat l) + 1) by lia.
    set (pu := pre ++ map Some dn ++ [Some u]) in *.
    set (F := map Some (flat its) ++ [Some c]). set (M := map Some (flat l) ++ [None]).
    assert (HF : length F = length (flat its) + 1) by (unfold F; rewrite app_length, map_length; done).
    assert (HM : length M = length (flat l) + 1) by (unfold M; rewrite app_length, map_length; done).
    assert (Ha2 : arr s = pu ++ F ++ M ++ post) by (rewrite Ha'; unfold F, M; by rewrite <- !app_assoc).
    rewrite <- HF, Ha2. rewrite (copy_out_ok pu F (M ++ post)) by lia. cbn [mbind option_bind].
    assert (E1 : copy_out (pu ++ F ++ M ++ post) (base + i + 1 + length F) (length (flat l) + 1) = Some M).
    { rewrite <- HM. rewrite app_assoc. apply copy_out_ok. rewrite app_length. lia. }
    rewrite E1. cbn [mbind option_bind].
    assert (E2 : exists G, copy_in (pu ++ F ++ M ++ post) (base + i + 1) M = Some (pu ++ M ++ G ++ post) /\ length G = length F).
    { exists (drop (length M) (F ++ M)). split.
      - replace (F ++ M ++ post) with (take (length M) (F ++ M) ++ (drop (length M) (F ++ M) ++ post)).
        + apply copy_in_ok; [lia|]. rewrite take_length, app_length. lia.
        + rewrite app_assoc, take_drop. by rewrite <- app_assoc.
      - rewrite drop_length, app_length. lia. }
    destruct E2 as (G & -> & HG). cbn [mbind option_bind].
    assert (E3 : copy_in (pu ++ M ++ G ++ post) (base + i + 1 + (length (flat l) + 1)) F = Some (pu ++ M ++ F ++ post)).
    { rewrite app_assoc. rewrite (copy_in_ok (pu ++ M) G post F); [by rewrite <- app_assoc|rewrite app_length; lia|done]. }
    rewrite E3. cbn [mbind option_bind].
    replace (take (length F - 1) F) with (map (@Some nat) (flat its)).
    2:{ rewrite HF. unfold F. replace (length (flat its) + 1 - 1) with (length (map (@Some nat) (flat its))) by (rewrite map_length; lia). by rewrite take_app. }
    destruct (members_ok (flat its) u (off s) (sz s) 0 Hndi Hui) as (of' & -> & O1 & O2 & O3).
    cbn [mbind option_bind]. rewrite Nat.max_0_l.
    set (pn := pu ++ M).
    assert (Ha3 : pu ++ M ++ F ++ post = (pn ++ map Some (flat its)) ++ Some c :: post).
    { unfold pn, F. by rewrite <- !app_assoc. }
    assert (Hpn : length pn = base + (count - length F + 1)) by (unfold pn; rewrite app_length; lia).
    assert (Hpc : length (pn ++ map Some (flat its)) = base + count) by (rewrite app_length, map_length; lia).
    rewrite Ha3. rewrite (field_ok _ _ c) by (by apply list_lookup_middle). cbn [mbind option_bind].
    rewrite wr_Some by (rewrite app_length; cbn; lia). rewrite <- Hpc. cbn [mbind option_bind].
    rewrite insert_app_r_alt by lia. rewrite Nat.sub_diag. cbn [list_insert insert].
    assert (Ha4 : (pn ++ map Some (flat its)) ++ None :: post = pn ++ map Some [] ++ map Some (flat its) ++ None :: post) by (by rewrite <- app_assoc).
    rewrite Ha4. rewrite <- Hpn.
    assert (Ec : forall n, length (flat its) < n ->
      count_fields n (pn ++ map Some [] ++ map Some (flat its) ++ None :: post) (length pn) 0 = Some (length (flat its))).
    { intros n Hn. exact (count_ok pn [] (flat its) post n Hn). }
    rewrite Ec by (rewrite !app_length, !map_length; cbn; lia). cbn [mbind option_bind].
    match goal with |- context [extract k fuel ?st _ _ _ _] => set (s1 := st) end.
    destruct (IH its s1 pn [] post (length pn) (name ++ [i]) (length (flat its)) 0) as (s2 & X2 & A2 & (T1 & T2 & T3 & T4 & T5 & T6));
      [lia|done|done|done|done|done|done|].
    rewrite X2. cbn [mbind option_bind length Nat.add]. clear X2 E1 E3 Ec.
    match goal with |- context [extract k fuel ?st base _ _ _] => set (s3 := st) end.
    set (post' := map Some (heads its) ++ None :: lay its ++ post) in *.
    destruct (IH l s3 pre (dn ++ [u]) post' base name (count - length F) (i + 1)) as (s4 & X4 & A4 & (R1 & R2 & R3 & R4 & R5 & R6)).
    { lia. } { done. } { done. }
    { cbn [arr s3]. rewrite A2. unfold pn, pu, M, post'. rewrite map_app, <- !app_assoc. done. }
    { done. } { rewrite app_length. cbn. lia. } { rewrite app_length. cbn. lia. }
    rewrite X4. exists s4. split; [do 3 f_equal; rewrite app_length; cbn; lia|].
    split.
    { rewrite A4. unfold post'. cbn [lay]. rewrite lay1_Un. rewrite map_app, <- !app_assoc. cbn. done. }
    cbn [types off sz meta s3] in *. cbn [types off sz meta s1] in *.
    (* sizes, meta and offsets of the fields of [l] have not changed *)
    assert (Qsz : forall y, y ∈ flat l -> sz s2 y = sz s y /\ meta s2 y = meta s y).
    { intros y Hy. destruct (T6 y) as [B1 B2].
      { intros its' c' Hx. apply union_in_flat in Hx as [Hx _]. by apply (Hil y). }
      rewrite B1, B2, !upd_ne; [done|intros ->; done..]. }
    assert (Qof : forall y, y ∈ flat l -> off s2 y = off s y).
    { intros y Hy. rewrite T2 by (intros Hx; by apply (Hil y)). apply O3; [intros Hx; by apply (Hil y)|intros ->; done]. }
    assert (Qu : off s4 u = last_nz (off s) (off s u) (flat its)).
    { rewrite R2 by done. rewrite T2 by done. done. }
    assert (Qi : forall y, y ∈ flat its -> off s4 y = 0).
    { intros y Hy. rewrite R2 by (by apply Hil).
      (* inside, all the offsets were 0 *)
      assert (Hzero : forall d z, (forall w, w ∈ z -> of' w = 0) -> last_nz of' d z = d).
      { intros d z. revert d. induction z as [|w z IHz]; intros d Hz; [done|]. cbn. rewrite (Hz w) by (by left). cbn.
        apply IHz. intros w' Hw'. apply Hz. by right. }
      destruct (decide (y ∈ heads its)) as [Hh|Hh].
      - apply elem_of_list_fmap in Hh as (z & -> & Hz). destruct z as [g|v jts d]; cbn [head1] in *.
        + rewrite T3 by done. by apply O2.
        + destruct (T4 _ _ _ Hz) as [Z1 _]. rewrite Z1, Hzero; [by apply O2|].
          intros w Hw'. apply O2. clear -Hz Hw'. unfold flat. apply elem_of_list_In, in_concat.
          exists (flat1 (Un v jts d)). split; [apply in_map; by apply elem_of_list_In|].
          apply elem_of_list_In. rewrite flat1_Un, elem_of_cons, elem_of_app. auto.
      - assert (Hz : exists z, z ∈ its /\ y ∈ flat1 z).
        { apply elem_of_list_In in Hy. apply in_concat in Hy as (ys & Hys & Hyy). apply in_map_iff in Hys as (z & <- & Hz).
          exists z. by split; apply elem_of_list_In. }
        destruct Hz as (z & Hz & Hyz). destruct z as [g|v jts d].
        + exfalso. apply Hh. apply elem_of_list_fmap. exists (Fld g). apply elem_of_list_singleton in Hyz. by subst.
        + rewrite flat1_Un, elem_of_cons, elem_of_app, elem_of_list_singleton in Hyz.
          destruct Hyz as [->|[Hyz| ->]].
          * exfalso. apply Hh. apply elem_of_list_fmap. by exists (Un v jts d).
          * by apply (T4 v jts d).
          * (* the end marker of an inner union *)
            rewrite (proj2 (proj2 (T4 v jts d Hz))). by apply O2. }
    split.
    { rewrite R1, T1. cbn [tys]. rewrite tys1_Un.
      rewrite (tys_ext (sz s2) (sz s) l) by (intros y Hy; by apply Qsz).
      rewrite (tys_ext (upd (sz s) u _) (sz s) its) by (intros y Hy; rewrite upd_ne; [done|congruence]).
      replace (base + i + 1 + length (flat l) + 1) with (length pn) by lia. rewrite <- !app_assoc. done. }
    split.
    { intros y Hy. rewrite flat_cons, flat1_Un, elem_of_app, elem_of_cons, elem_of_app, elem_of_list_singleton in Hy.
      rewrite R2 by tauto. rewrite T2 by tauto. apply O3; tauto. }
    split.
    { intros f Hfl. apply elem_of_cons in Hfl as [[=]|Hfl]. rewrite R3 by done. apply Qof.
      apply head_in_flat, elem_of_list_fmap. by exists (Fld f). }
    split.
    { intros v jts d Hv. apply elem_of_cons in Hv as [[= -> -> ->]|Hv].
      { split; [done|]. split; [done|]. rewrite R2, T2 by done. apply O3; [done|congruence]. }
      destruct (R4 v jts d Hv) as (Z1 & Z2 & Z3). rewrite Z1, Z3.
      assert (Hin : forall w, w ∈ flat1 (Un v jts d) -> w ∈ flat l).
      { intros w Hw'. unfold flat. apply elem_of_list_In, in_concat. exists (flat1 (Un v jts d)).
        split; [apply in_map; by apply elem_of_list_In|by apply elem_of_list_In]. }
      split; [|split; [done|apply Qof, Hin; rewrite flat1_Un, elem_of_cons, elem_of_app, elem_of_list_singleton; auto]].
      rewrite (Qof v) by (apply Hin; by left). apply last_nz_ext. intros w Hw'. apply Qof, Hin.
      rewrite flat1_Un, elem_of_cons, elem_of_app. auto. }
    split.
    { intros v jts d Hv. rewrite unions_cons, unions1_Un, !elem_of_app, elem_of_list_singleton in Hv.
      destruct Hv as [[Hv|[= -> -> ->]]|Hv].
      - pose proof (union_in_flat _ _ _ _ Hv) as (Fv & Fd & Fj). destruct (T5 v jts d Hv) as [B1 B2].
        destruct (R6 v) as [C1 C2].
        { intros its' c' Hx. apply union_in_flat in Hx as [Hx _]. by apply (Hil v). }
        rewrite C1, C2, B1, B2. split; [|rewrite upd_ne; [done|congruence]].
        apply max_sz_ext. intros w Hw'. rewrite upd_ne; [done|]. intros ->. by apply Hui, Fj.
      - destruct (R6 u) as [C1 C2].
        { intros its' c' Hx. by apply union_in_flat in Hx as [Hx _]. }
        destruct (T6 u) as [B1 B2].
        { intros its' c' Hx. by apply union_in_flat in Hx as [Hx _]. }
        rewrite C1, C2, B1, B2, !upd_eq. done.
      - pose proof (union_in_flat _ _ _ _ Hv) as (Fv & Fd & Fj). destruct (R5 v jts d Hv) as [B1 B2].
        rewrite B1, B2. split; [|by apply Qsz]. apply max_sz_ext. intros w Hw'. by apply Qsz, Fj. }
    { intros y Hy. destruct (R6 y) as [C1 C2].
      { intros its' c' Hx. apply (Hy its' c'). rewrite unions_cons, elem_of_app. by right. }
      destruct (T6 y) as [B1 B2].
      { intros its' c' Hx. apply (Hy its' c'). rewrite unions_cons, unions1_Un, !elem_of_app. auto. }
      assert (y <> u).
      { intros ->. apply (Hy its c). rewrite unions_cons, unions1_Un, !elem_of_app, elem_of_list_singleton. auto. }
      rewrite C1, C2, B1, B2, !upd_ne by done. done. }
Qed.
End extract.

(** *** Reading the result *)
Definition reads_as (a : list (option nat)) (t : td) (un : nat * list item * nat) : Prop :=
  let '(u, its, c) := un in
  td_field t = u /\ td_count t = length its /\
  take (length its + 1) (drop (td_base t) a) = map Some (heads its) ++ [None].

Lemma tys_reads sz_ l : forall a pre dn post base name i,
  a = pre ++ map Some dn ++ map Some (heads l) ++ None :: lay l ++ post -> base = length pre -> i = length dn ->
  Forall2 (reads_as a) (tys sz_ base name l i) (unions l).
Proof.
  induction l as [|f l IH|u its c l IH1 IH2] using items_ind; intros a pre dn post base name i Ha Hb Hi; [constructor|..].
  - cbn [tys tys1 app]. rewrite unions_cons. cbn [unions1 app].
    apply (IH a pre (dn ++ [f]) post); [|done|rewrite app_length; cbn; lia].
    rewrite Ha, map_app, <- !app_assoc. cbn. by rewrite app_nil_r.
  - cbn [tys]. rewrite tys1_Un, unions_cons, unions1_Un. cbn [lay heads map head1] in Ha. rewrite lay1_Un in Ha. unfold heads in *.
    pose proof (lay_length l) as Hl.
    set (sub := base + i + 1 + length (flat l) + 1).
    set (p2 := pre ++ map Some dn ++ Some u :: map Some (map head1 l) ++ None :: lay l).
    assert (Hp2 : length p2 = sub).
    { unfold p2, sub. repeat first [rewrite app_length | rewrite map_length | progress cbn [length app]]. lia. }
    assert (Ha2 : a = p2 ++ map Some (map head1 its) ++ None :: lay its ++ post).
    { rewrite Ha. unfold p2. repeat first [rewrite <- app_assoc | progress cbn]. done. }
    apply Forall2_app; [apply Forall2_app|].
    + apply (IH1 a p2 [] post); [exact Ha2|done|done].
    + constructor; [|constructor]. split; [done|]. split; [done|]. cbn [td_base]. rewrite <- Hp2, Ha2, drop_app.
      unfold heads. replace (length its + 1) with (length (map Some (map head1 its) ++ [@None nat])) by (rewrite app_length, !map_length; done).
      change (None :: lay its ++ post) with ([None] ++ lay its ++ post). rewrite app_assoc. by rewrite take_app.
    + apply (IH2 a pre (dn ++ [u]) ((map Some (map head1 its) ++ [None] ++ lay its) ++ post)); [|done|rewrite app_length; cbn; lia].
      rewrite Ha, map_app, <- !app_assoc. done.
Qed.

Lemma tys_sizes sz_ l base name i : map td_size (tys sz_ base name l i) = map (fun un => max_sz sz_ (flat (snd (fst un)))) (unions l).
Proof.
  revert base name i. induction l as [|f l IH|u its c l IH1 IH2] using items_ind; intros base name i; [done|..].
  - cbn [tys tys1 app]. rewrite unions_cons. apply IH.
  - cbn [tys]. rewrite tys1_Un, unions_cons, unions1_Un, !map_app, IH1, IH2. done.
Qed.

Lemma tys_names sz_ l : forall base name i,
  (forall t, t ∈ tys sz_ base name l i -> exists j r, td_name t = name ++ j :: r /\ i <= j) /\
  NoDup (map td_name (tys sz_ base name l i)).
Proof.
  induction l as [|f l IH|u its c l IH1 IH2] using items_ind; intros base name i.
  - split; [intros t H; by apply elem_of_nil in H|constructor].
  - cbn [tys tys1 app]. destruct (IH base name (i + 1)) as [H1 H2]. split; [|done].
    intros t Ht. apply H1 in Ht as (j & r & E & Hj). exists j, r. split; [done|lia].
  - cbn [tys]. rewrite tys1_Un. set (sub := base + i + 1 + length (flat l) + 1).
    destruct (IH1 sub (name ++ [i]) 0) as [A1 A2]. destruct (IH2 base name (i + 1)) as [B1 B2]. split.
    + intros t Ht. rewrite !elem_of_app, elem_of_list_singleton in Ht. destruct Ht as [[Ht|Ht]|Ht].
      * apply A1 in Ht as (j & r & E & _). exists i, (j :: r). rewrite E, <- app_assoc. done.
      * exists i, []. rewrite Ht. done.
      * apply B1 in Ht as (j & r & E & Hj). exists j, r. split; [done|lia].
    + rewrite !map_app, !NoDup_app. split; [|split; [|done]].
      * split; [done|]. split; [|apply NoDup_singleton].
        intros n Hn Hx. apply elem_of_list_singleton in Hx. cbn in Hx. apply elem_of_list_fmap in Hn as (t & -> & Ht).
        apply A1 in Ht as (j & r & E & _). rewrite Hx in E. apply (f_equal length) in E. rewrite !app_length in E. cbn in E. lia.
      * intros n Hn Hx. apply elem_of_list_fmap in Hx as (t & -> & Ht). apply B1 in Ht as (j & r & E & Hj).
        rewrite E in Hn. apply elem_of_app in Hn as [Hn|Hn].
        -- apply elem_of_list_fmap in Hn as (t' & E' & Ht'). apply A1 in Ht' as (j' & r' & E2 & _). rewrite E2 in E'.
           rewrite <- app_assoc in E'. apply app_inv_head in E'. injection E' as -> _. lia.
        -- apply elem_of_list_singleton in Hn. cbn in Hn. apply app_inv_head in Hn. injection Hn as -> _. lia.
Qed.

(** *** Arbitrary field lists: no access outside the array *)
Section safe.
Context (k : nat -> kind).

Lemma find_end_safe l : forall n pre post base count j o a p,
  a = pre ++ p ++ map Some l ++ post -> base = length pre -> j = length p -> count = j + length l -> length l < n ->
  exists A B, find_end k n a base count j o = Some (j + length A) /\
    (l = A /\ B = [] \/ exists c, l = A ++ c :: B).
Proof.
  induction l as [|f l IH]; intros n pre post base count j o a p Ha Hb Hj Hc Hn; (destruct n as [|n]; [lia|]); cbn [find_end].
  - cbn in Hc. rewrite (proj2 (Nat.ltb_ge _ _)) by lia. exists [], []. cbn. rewrite Nat.add_0_r. auto.
  - cbn [length] in *. rewrite (proj2 (Nat.ltb_lt _ _)) by lia.
    rewrite (field_ok _ _ f) by (rewrite Ha, app_assoc; apply list_lookup_middle; rewrite app_length; lia).
    cbn [mbind option_bind].
    assert (Hgo : forall o', exists A B, find_end k n a base count (j + 1) o' = Some (j + 1 + length A) /\
              (l = A /\ B = [] \/ exists c, l = A ++ c :: B)).
    { intros o'. apply (IH n pre post base count (j + 1) o' a (p ++ [Some f])); [|done|rewrite app_length; cbn; lia|lia|lia].
      rewrite Ha. by rewrite <- !app_assoc. }
    assert (Hgo' : forall o', exists A B, find_end k n a base count (j + 1) o' = Some (j + length A) /\
              (f :: l = A /\ B = [] \/ exists c, f :: l = A ++ c :: B)).
    { intros o'. destruct (Hgo o') as (A & B & E & H). exists (f :: A), B. split; [rewrite E; f_equal; cbn; lia|].
      destruct H as [[-> ->]|[c ->]]; [by left|right; by exists c]. }
    destruct (k f); [apply Hgo'|apply Hgo'|]. destruct (Nat.eqb (o - 1) 0); [|apply Hgo'].
    exists [], l. cbn. rewrite Nat.add_0_r. split; [done|]. right. by exists f.
Qed.

Lemma members_safe l u of_ sz_ size : exists r, members (map Some l) u of_ sz_ size = Some r.
Proof. revert of_ size. induction l as [|f l IH]; intros of_ size; [by eexists|]. cbn [map members]. apply IH. Qed.

Lemma extract_safe fuel : forall l s pre dn post base name count i,
  length l < fuel -> arr s = pre ++ map Some dn ++ map Some l ++ None :: post ->
  base = length pre -> count = length dn + length l -> i = length dn ->
  exists s' b l' rest, extract k fuel s base name count i = Some (s', length dn + length l', b) /\
    arr s' = pre ++ map Some dn ++ map Some l' ++ None :: rest ++ post /\ length l' + length rest = length l.
Proof.
  induction fuel as [|fuel IH]; [lia|]. intros l s pre dn post base name count i Hf Ha Hb Hcnt Hi.
  cbn [extract]. destruct l as [|u l].
  { cbn in Hcnt. rewrite (proj2 (Nat.ltb_ge i count)) by lia. exists s, true, [], []. cbn [length].
    split; [do 3 f_equal; lia|]. split; [exact Ha|done]. }
  cbn [length] in *. rewrite (proj2 (Nat.ltb_lt i count)) by lia.
  rewrite (field_ok _ _ u) by (rewrite Ha, app_assoc; apply list_lookup_middle; rewrite app_length, map_length; lia).
  cbn [mbind option_bind].
  assert (Hplain : exists s' b l' rest, extract k fuel s base name count (i + 1) = Some (s', length dn + length l', b) /\
    arr s' = pre ++ map Some dn ++ map Some l' ++ None :: rest ++ post /\ length l' + length rest = S (length l)).
  { destruct (IH l s pre (dn ++ [u]) post base name count (i + 1)) as (s' & b & l' & rest & E & A & Hl); try done.
    - lia.
    - rewrite Ha, map_app, <- app_assoc. done.
    - rewrite app_length. cbn. lia.
    - rewrite app_length. cbn. lia.
    - exists s', b, (u :: l'), rest. split; [rewrite E; do 3 f_equal; rewrite app_length; cbn; lia|].
      split; [rewrite A, map_app, <- app_assoc; done|cbn; lia]. }
  destruct (k u); [exact Hplain| |exact Hplain]. clear Hplain.
  destruct (find_end_safe l (S count) pre (None :: post) base count (i + 1) 1 (arr s) (map Some dn ++ [Some u])) as (A & B & E & HAB).
  { rewrite Ha. by rewrite <- !app_assoc. } { done. } { rewrite app_length, map_length. cbn. lia. } { lia. } { lia. }
  rewrite E. cbn [mbind option_bind]. clear E.
  destruct HAB as [[-> ->]|[c ->]].
  { rewrite (proj2 (Nat.leb_le _ _)) by lia. exists s, false, (u :: A), []. cbn [length].
    split; [do 3 f_equal; lia|]. split; [exact Ha|lia]. }
  rewrite app_length in *. cbn [length] in *. rewrite (proj2 (Nat.leb_gt _ _)) by lia.
  set (pu := pre ++ map Some dn ++ [Some u]).
  set (F := map Some A ++ [Some c]). set (M := map Some B ++ [None]).
  assert (Hp : length pu = base + i + 1) by (unfold pu; rewrite !app_length, map_length; cbn; lia).
  assert (HF : length F = length A + 1) by (unfold F; rewrite app_length, map_length; done).
  assert (HM : length M = length B + 1) by (unfold M; rewrite app_length, map_length; done).
  assert (Ha2 : arr s = pu ++ F ++ M ++ post).
  { rewrite Ha. unfold pu, F, M. cbn. rewrite !map_app, <- !app_assoc. done. }
  replace (i + 1 + length A - i) with (length F) by lia.
  replace (count - (i + 1 + length A)) with (length M) by lia.
  rewrite Ha2. rewrite (copy_out_ok pu F (M ++ post)) by lia. cbn [mbind option_bind].
  assert (E1 : copy_out (pu ++ F ++ M ++ post) (base + i + 1 + length F) (length M) = Some M).
  { rewrite app_assoc. apply copy_out_ok. rewrite app_length. lia. }
  rewrite E1. cbn [mbind option_bind].
  assert (E2 : exists G, copy_in (pu ++ F ++ M ++ post) (base + i + 1) M = Some (pu ++ M ++ G ++ post) /\ length G = length F).
  { exists (drop (length M) (F ++ M)). split.
    - replace (F ++ M ++ post) with (take (length M) (F ++ M) ++ (drop (length M) (F ++ M) ++ post)).
      + apply copy_in_ok; [lia|]. rewrite take_length, app_length. lia.
      + rewrite app_assoc, take_drop. by rewrite <- app_assoc.
    - rewrite drop_length, app_length. lia. }
  destruct E2 as (G & -> & HG). cbn [mbind option_bind].
  assert (E3 : copy_in (pu ++ M ++ G ++ post) (base + i + 1 + length M) F = Some (pu ++ M ++ F ++ post)).
  { rewrite app_assoc. rewrite (copy_in_ok (pu ++ M) G post F); [by rewrite <- app_assoc|rewrite app_length; lia|done]. }
  rewrite E3. cbn [mbind option_bind].
  replace (take (length F - 1) F) with (map (@Some nat) A).
  2:{ rewrite HF. unfold F. replace (length A + 1 - 1) with (length (map (@Some nat) A)) by (rewrite map_length; lia). by rewrite take_app. }
  destruct (members_safe A u (off s) (sz s) 0) as [[of' size] ->]. cbn [mbind option_bind].
  set (pn := pu ++ M).
  assert (Ha3 : pu ++ M ++ F ++ post = (pn ++ map Some A) ++ Some c :: post).
  { unfold pn, F. by rewrite <- !app_assoc. }
  assert (Hpn : length pn = base + (count - length F + 1)) by (unfold pn; rewrite app_length; lia).
  assert (Hpc : length (pn ++ map Some A) = base + count) by (rewrite app_length, map_length; lia).
  rewrite Ha3. rewrite (field_ok _ _ c) by (by apply list_lookup_middle). cbn [mbind option_bind].
  rewrite wr_Some by (rewrite app_length; cbn; lia). rewrite <- Hpc. cbn [mbind option_bind].
  rewrite insert_app_r_alt by lia. rewrite Nat.sub_diag. cbn [list_insert insert].
  assert (Ha4 : (pn ++ map Some A) ++ None :: post = pn ++ map Some [] ++ map Some A ++ None :: post) by (by rewrite <- app_assoc).
  rewrite Ha4. rewrite <- Hpn.
  assert (Ec : forall n, length A < n -> count_fields n (pn ++ map Some [] ++ map Some A ++ None :: post) (length pn) 0 = Some (length A)).
  { intros n Hn. exact (count_ok pn [] A post n Hn). }
  rewrite Ec by (rewrite !app_length, !map_length; cbn; lia). cbn [mbind option_bind].
  match goal with |- context [extract k fuel ?st _ _ _ _] => set (s1 := st) end.
  destruct (IH A s1 pn [] post (length pn) (name ++ [i]) (length A) 0) as (s2 & b2 & l2 & rest2 & X2 & A2 & L2); try done.
  { lia. }
  rewrite X2. cbn [mbind option_bind length Nat.add]. clear X2 E1 E3 Ec.
  match goal with |- context [extract k fuel ?st base _ _ _] => set (s3 := st) end.
  destruct (IH B s3 pre (dn ++ [u]) (map Some l2 ++ None :: rest2 ++ post) base name (count - length F) (i + 1))
    as (s4 & b4 & l4 & rest4 & X4 & A4 & L4).
  { lia. }
  { cbn [arr s3]. rewrite A2. unfold pn, pu, M. rewrite map_app, <- !app_assoc. done. }
  { done. } { rewrite app_length. cbn. lia. } { rewrite app_length. cbn. lia. }
  rewrite X4. exists s4, b4, (u :: l4), (rest4 ++ map Some l2 ++ None :: rest2).
  split; [do 3 f_equal; rewrite app_length; cbn; lia|].
  split; [rewrite A4, map_app; repeat first [rewrite <- app_assoc | progress cbn]; done|].
  rewrite !app_length, map_length. cbn. lia.
Qed.
End safe.
