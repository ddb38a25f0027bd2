(** The table a parser builds for a document: nodes in document order. *)
From Verif Require Import Base Ptrs Parse.

Arguments LSt {I}.

Inductive doc {A : Type} := Doc (a : A) (ks : list doc).
Arguments doc : clear implicits.

Section Doc_ind.
  Context {A : Type} (P : doc A -> Prop) (H : forall a ks, Forall P ks -> P (Doc a ks)).
  Fixpoint doc_ind' (t : doc A) : P t :=
    match t with
    | Doc a ks => H a ks ((fix go ks := match ks return Forall P ks with
        | [] => @List.Forall_nil _ P
        | k :: ks => @List.Forall_cons _ P k ks (doc_ind' k) (go ks) end) ks)
    end.
End Doc_ind.

Section Build.
  Context {A I : Type} (fin : A -> nat -> node -> node).

  Fixpoint dsize (t : doc A) : nat := match t with Doc _ ks => S (list_sum (map dsize ks)) end.
  Definition dsizes (ks : list (doc A)) : nat := list_sum (map dsize ks).

  Definition blank (p nx fc : nat) : node := Node p nx fc 0 false false false false.

  Fixpoint table (p k nx : nat) (t : doc A) : list node :=
    match t with
    | Doc a ks =>
      fin a k (blank p nx (match ks with [] => 0 | _ => S k end)) ::
      (fix go j ks := match ks with
       | [] => []
       | t :: ts => table k j (match ts with [] => 0 | _ => j + dsize t end) t ++ go (j + dsize t) ts
       end) (S k) ks
    end.
  Fixpoint tables (par j nx : nat) (ks : list (doc A)) : list node :=
    match ks with
    | [] => []
    | t :: ts => table par j (match ts with [] => nx | _ => j + dsize t end) t ++ tables par (j + dsize t) nx ts
    end.

  Lemma table_eq p k nx a ks : table p k nx (Doc a ks) =
    fin a k (blank p nx (match ks with [] => 0 | _ => S k end)) :: tables k (S k) 0 ks.
  Proof.
    cbn. f_equal. generalize (S k). induction ks as [|t ts IH]; intros j; [done|]. cbn. by rewrite IH.
  Qed.

  Lemma dsizes_cons t ts : dsizes (t :: ts) = dsize t + dsizes ts.
  Proof. done. Qed.
  Lemma dsizes_app ks ks' : dsizes (ks ++ ks') = dsizes ks + dsizes ks'.
  Proof. unfold dsizes. rewrite map_app, list_sum_app. done. Qed.
  Lemma dsizes_one t : dsizes [t] = dsize t.
  Proof. unfold dsizes. cbn. lia. Qed.

  Lemma table_length p k nx t : length (table p k nx t) = dsize t.
  Proof.
    revert p k nx. induction t as [a ks IH] using doc_ind'. intros p k nx. rewrite table_eq. cbn. f_equal.
    generalize (S k). induction IH as [|t ts Ht _ IH]; intros j; [done|]. cbn. rewrite app_length, Ht, IH. done.
  Qed.
  Lemma tables_length p j nx ks : length (tables p j nx ks) = dsizes ks.
  Proof. revert j. induction ks as [|t ts IH]; intros j; [done|]. cbn. rewrite app_length, table_length, IH. done. Qed.
  Lemma dsize_pos t : 0 < dsize t. Proof. clear fin. destruct t. cbn. lia. Qed.

  Context (fin_next : forall a k n v, set_next (fin a k n) v = fin a k (set_next n v))
          (fin_parent : forall a k n, parent (fin a k n) = parent n).

  Lemma tables_app p j nx ks t ts : tables p j nx (ks ++ t :: ts) =
    tables p j (j + dsizes ks) ks ++ tables p (j + dsizes ks) nx (t :: ts).
  Proof.
    revert j. induction ks as [|u ks IH]; intros j.
    { cbn [app]. unfold dsizes. cbn [map list_sum foldr]. by rewrite Nat.add_0_r. }
    cbn [app tables]. rewrite IH, dsizes_cons, <- app_assoc, !Nat.add_assoc. f_equal. destruct ks; cbn [app]; [|done].
    unfold dsizes. cbn. by rewrite Nat.add_0_r.
  Qed.
  Lemma tables_snoc p j nx ks t : tables p j nx (ks ++ [t]) =
    tables p j (j + dsizes ks) ks ++ table p (j + dsizes ks) nx t.
  Proof. rewrite tables_app. cbn. by rewrite app_nil_r. Qed.

  Lemma table_next p k nx t v : exists n l, table p k nx t = n :: l /\ table p k v t = set_next n v :: l.
  Proof. destruct t as [a ks]. rewrite !table_eq. eexists _, _. split; [done|]. by rewrite fin_next. Qed.

  (** Parents inside a document. *)
  Lemma table_parents t : forall p k nx i n, table p k nx t !! i = Some n ->
    (i = 0 /\ parent n = p) \/ (k <= parent n /\ parent n < k + i).
  Proof.
    induction t as [a ks IH] using doc_ind'. intros p k nx i n. rewrite table_eq. destruct i as [|i]; cbn.
    { intros [= <-]. left. by rewrite fin_parent. }
    intros E. right. assert (exists d, d + k < S k /\ k <= d + k) as _ by (exists 0; lia).
    assert (forall j i n, k < j -> tables k j 0 ks !! i = Some n -> k <= parent n /\ parent n < j + i) as G.
    { clear i n E. induction IH as [|t ts Ht _ IH]; intros j i n L E; [done|]. cbn in E.
      apply lookup_app_Some in E as [E|[Li E]].
      - apply Ht in E as [[-> ->]|E]; lia.
      - rewrite table_length in Li, E. apply IH in E; lia. }
    apply G in E; lia.
  Qed.

  (** Node [k] after its children [ks] are there. *)
  Definition own (k : nat) (ks : list (doc A)) (n : node) : node :=
    match k, ks with 0, _ | _, [] => n | _, _ => set_first_child n (S k) end.

  Definition opened_ns (pre : list node) (n0 : node) (ks : list (doc A)) : list node :=
    pre ++ own (length pre) ks n0 :: tables (length pre) (S (length pre)) 0 ks.

  (** The state with node [length pre] open, having the children [ks] so far. *)
  Definition opened (pre : list node) (n0 : node) (ks : list (doc A)) (c : nat) (is : list I) : lst I :=
    LSt (Ptrs (opened_ns pre n0 ks) c) is (length pre).

  (** The cache is inside the last child. *)
  Definition cached (k : nat) (ks : list (doc A)) (c : nat) : Prop :=
    forall vs u, ks = vs ++ [u] -> S k + dsizes vs <= c /\ c < S k + dsizes ks.

  Lemma own_keep k ks n : parent (own k ks n) = parent n /\ next (own k ks n) = next n.
  Proof. by destruct k, ks. Qed.

  Lemma opened_length pre n0 ks : length (opened_ns pre n0 ks) = length pre + S (dsizes ks).
  Proof. unfold opened_ns. rewrite app_length. cbn. by rewrite tables_length. Qed.

  (** Nodes of the last child. *)
  Lemma opened_last pre n0 vs u : opened_ns pre n0 (vs ++ [u]) =
    (pre ++ own (length pre) (vs ++ [u]) n0 :: tables (length pre) (S (length pre)) (S (length pre) + dsizes vs) vs) ++
    table (length pre) (S (length pre) + dsizes vs) 0 u.
  Proof. unfold opened_ns. rewrite tables_snoc, <- app_assoc. done. Qed.

  Lemma climb_ok pre n0 vs u c f : length pre <> 0 ->
    S (length pre) + dsizes vs <= c -> c < S (length pre) + dsizes (vs ++ [u]) -> c < f ->
    climb_to f (opened_ns pre n0 (vs ++ [u])) (length pre) c = Some (S (length pre) + dsizes vs).
  Proof.
    intros Z. revert f. induction c as [c IH] using (well_founded_induction lt_wf). intros f L1 L2 Lf.
    destruct f as [|f]; [lia|]. cbn [climb_to]. destruct (Nat.eqb_spec c 0); [lia|].
    rewrite opened_last. set (h := pre ++ _).
    assert (length h = S (length pre) + dsizes vs) as Lh.
    { unfold h. rewrite app_length. cbn. rewrite tables_length. lia. }
    rewrite dsizes_app, dsizes_one in L2.
    destruct (lookup_lt_is_Some_2 (table (length pre) (S (length pre) + dsizes vs) 0 u) (c - length h)) as [m En].
    { rewrite table_length. lia. }
    unfold rd. rewrite lookup_app_r by lia. rewrite En. cbn.
    apply table_parents in En as [[E ->]|E].
    - rewrite Nat.eqb_refl. f_equal. lia.
    - destruct (Nat.eqb_spec (parent m) (length pre)); [lia|]. unfold h. rewrite <- opened_last.
      apply IH; try lia. rewrite dsizes_app, dsizes_one. lia.
  Qed.

  Lemma own_lookup pre n0 ks : opened_ns pre n0 ks !! length pre = Some (own (length pre) ks n0).
  Proof. unfold opened_ns. by rewrite lookup_app_r, Nat.sub_diag by lia. Qed.

  Lemma last_child_none pre n0 c : first_child n0 = 0 ->
    last_child_for_parent (Ptrs (opened_ns pre n0 []) c) (length pre) = Some (0, Ptrs (opened_ns pre n0 []) c).
  Proof.
    intros F. unfold last_child_for_parent. cbn [ra]. unfold rd. rewrite own_lookup.
    destruct (Nat.eqb_spec (length pre) 0); [done|]. cbn [mbind option_bind].
    replace (first_child _) with 0 by (by destruct (length pre)). done.
  Qed.

  Lemma last_child_some pre n0 vs u c : length pre <> 0 -> cached (length pre) (vs ++ [u]) c ->
    last_child_for_parent (Ptrs (opened_ns pre n0 (vs ++ [u])) c) (length pre) =
    Some (S (length pre) + dsizes vs, Ptrs (opened_ns pre n0 (vs ++ [u])) (S (length pre) + dsizes vs)).
  Proof.
    intros Z C. destruct (C vs u eq_refl) as [C1 C2]. unfold last_child_for_parent. cbn [ra cache]. unfold rd at 1. rewrite own_lookup.
    destruct (Nat.eqb_spec (length pre) 0); [done|]. cbn [mbind option_bind].
    replace (first_child _) with (S (length pre)).
    2: { unfold own. destruct (length pre); [done|]. by destruct vs. }
    cbn [Nat.eqb]. rewrite climb_ok; [|done..|rewrite opened_length; lia]. cbn. done.
  Qed.

  (** push_node below an open node. *)
  Lemma push_ok d pre n0 ks c is : first_child n0 = 0 -> cached (length pre) ks c -> length pre <> 0 \/ ks = [] ->
    exists pre', length pre' = length pre + S (dsizes ks) /\
    lpush d (opened pre n0 ks c is) = Some (opened pre' (blank (length pre) 0 0) [] (length pre') (is ++ [d])) /\
    forall t, pre' ++ table (length pre) (length pre') 0 t = opened_ns pre n0 (ks ++ [t]).
  Proof.
    intros F C D. unfold lpush, opened. cbn [l_ptrs l_info l_cur add_ptr ra cache]. rewrite opened_length.
    destruct (Nat.eqb_spec (length pre + S (dsizes ks)) 0); [lia|].
    unfold add_child.
    assert (forall (ns : list node) k m n, ns !! k = Some n -> (ns ++ [m]) !! k = Some n) as LA.
    { intros ns k m n' E. rewrite lookup_app_l; [done|by eapply lookup_lt_Some]. }
    destruct (decide (length pre = 0)) as [Z|Z].
    - (* the root *)
      destruct D as [?| ->]; [done|]. exists (opened_ns pre n0 []). rewrite opened_length.
      split; [done|]. destruct pre; [|done]. cbn. split; [done|]. intros t. by rewrite app_nil_r.
    - destruct ks as [|u vs _] using rev_ind.
      + (* first child *)
        exists (<[length pre := set_first_child n0 (S (length pre))]> (opened_ns pre n0 [])).
        rewrite insert_length, opened_length. split; [done|].
        assert (last_child_for_parent (Ptrs (opened_ns pre n0 [] ++ [fresh_node]) c) (length pre) =
                Some (0, Ptrs (opened_ns pre n0 [] ++ [fresh_node]) c)) as ->.
        { unfold last_child_for_parent. cbn [ra]. unfold rd. rewrite (LA _ _ _ _ (own_lookup _ _ _)).
          destruct (Nat.eqb_spec (length pre) 0); [done|]. cbn [mbind option_bind].
          replace (first_child _) with 0 by (by destruct (length pre)). done. }
        cbn [mbind option_bind]. unfold upd, rd. cbn [ra].
        rewrite lookup_app_r by (rewrite opened_length; lia). rewrite opened_length, Nat.sub_diag. cbn [lookup list_lookup mbind option_bind].
        rewrite wr_Some by (rewrite app_length, opened_length; cbn; lia). cbn [mbind option_bind].
        destruct (Nat.eqb_spec (length pre) 0); [done|].
        rewrite insert_app_r_alt by (rewrite opened_length; lia). rewrite opened_length, Nat.sub_diag. cbn [insert list_insert].
        rewrite (LA _ _ _ _ (own_lookup _ _ _)). cbn [mbind option_bind].
        replace (first_child (own (length pre) [] n0)) with 0 by (by destruct (length pre)). cbn [Nat.eqb].
        rewrite wr_Some by (rewrite app_length, opened_length; cbn; lia). cbn [mbind option_bind].
        rewrite insert_app_l by (rewrite opened_length; lia).
        split.
        * unfold opened, opened_ns at 2. rewrite insert_length, opened_length. cbn [tables own]. do 3 f_equal.
          -- replace (own (length pre) [] n0) with n0 by (by destruct (length pre)). f_equal.
             ++ do 2 f_equal. unfold dsizes. cbn. lia.
             ++ unfold own. destruct (length pre + _); done.
        * intros t. unfold opened_ns. rewrite insert_app_r_alt by lia. rewrite Nat.sub_diag. cbn [insert list_insert tables app own].
          rewrite <- app_assoc. f_equal. cbn [app]. rewrite app_nil_r. f_equal; [|f_equal; unfold dsizes; cbn; lia].
          destruct (length pre); [done|]. done.
      + (* further child *)
        set (lc := S (length pre) + dsizes vs).
        assert (exists m l h, opened_ns pre n0 (vs ++ [u]) = h ++ m :: l /\ length h = lc /\
          forall nx, h ++ set_next m nx :: l = h ++ table (length pre) lc nx u) as (m & l & h & Eo & Lh & Ev).
        { rewrite opened_last. destruct (table_next (length pre) lc 0 u 0) as (m & l & E1 & _). fold lc. rewrite E1.
          eexists m, l, _. split; [done|]. split.
          - rewrite app_length. cbn. rewrite tables_length. unfold lc. lia.
          - intros nx. destruct (table_next (length pre) lc 0 u nx) as (m' & l' & E1' & E2'). rewrite E1 in E1'. injection E1' as <- <-. by rewrite E2'. }
        assert (length (opened_ns pre n0 (vs ++ [u])) = length pre + S (dsizes (vs ++ [u]))) as Lo by apply opened_length.
        exists (h ++ set_next m (length pre + S (dsizes (vs ++ [u]))) :: l).
        assert (length (h ++ set_next m (length pre + S (dsizes (vs ++ [u]))) :: l) = length pre + S (dsizes (vs ++ [u]))) as Lp.
        { rewrite <- Lo, Eo, !app_length. done. }
        split; [done|].
        assert (last_child_for_parent (Ptrs (opened_ns pre n0 (vs ++ [u]) ++ [fresh_node]) c) (length pre) =
                Some (lc, Ptrs (opened_ns pre n0 (vs ++ [u]) ++ [fresh_node]) lc)) as ->.
        { destruct (C vs u eq_refl) as [C1 C2]. unfold last_child_for_parent. cbn [ra cache]. unfold rd at 1.
          rewrite (LA _ _ _ _ (own_lookup _ _ _)).
          destruct (Nat.eqb_spec (length pre) 0); [done|]. cbn [mbind option_bind].
          replace (first_child (own (length pre) (vs ++ [u]) n0)) with (S (length pre)).
          2: { unfold own. destruct (length pre); [done|]. by destruct vs. }
          cbn [Nat.eqb].
          assert (forall f c, c < length (opened_ns pre n0 (vs ++ [u])) ->
            climb_to f (opened_ns pre n0 (vs ++ [u])) (length pre) c = Some lc ->
            climb_to f (opened_ns pre n0 (vs ++ [u]) ++ [fresh_node]) (length pre) c = Some lc) as CM.
          { clear -Lo. intros f. induction f as [|f IH]; intros c L; [done|]. cbn. destruct (Nat.eqb_spec c 0); [done|].
            destruct (lookup_lt_is_Some_2 _ _ L) as [m En]. unfold rd. rewrite lookup_app_l, En by done. cbn.
            destruct (Nat.eqb_spec (parent m) (length pre)); [done|]. intros E. apply IH; [|done].
            destruct f; [done|]. cbn in E. destruct (Nat.eqb_spec (parent m) 0) as [->|]; [lia|].
            destruct (rd (opened_ns pre n0 (vs ++ [u])) (parent m)) eqn:R; [|done]. by eapply lookup_lt_Some. }
          rewrite CM; [cbn; done|lia|]. apply climb_ok; try done; rewrite ?app_length, ?opened_length; lia. }
        cbn [mbind option_bind]. unfold upd, rd. cbn [ra].
        rewrite lookup_app_r by lia. rewrite Lo, Nat.sub_diag. cbn [lookup list_lookup mbind option_bind].
        rewrite wr_Some by (rewrite app_length; cbn; lia). cbn [mbind option_bind].
        destruct (Nat.eqb_spec (length pre) 0); [done|].
        rewrite insert_app_r_alt by lia. rewrite Lo, Nat.sub_diag. cbn [insert list_insert].
        rewrite (LA _ _ _ _ (own_lookup _ _ _)). cbn [mbind option_bind].
        replace (first_child (own (length pre) (vs ++ [u]) n0)) with (S (length pre)).
        2: { unfold own. destruct (length pre); [done|]. by destruct vs. }
        cbn [Nat.eqb]. change (S (length pre) + dsizes vs) with lc. destruct (Nat.eqb_spec lc 0); [unfold lc in *; lia|].
        rewrite Eo. rewrite <- !app_assoc. rewrite lookup_app_r by lia. rewrite Lh, Nat.sub_diag. cbn [lookup list_lookup app mbind option_bind].
        rewrite wr_Some by (rewrite app_length; cbn; lia). cbn [mbind option_bind].
        rewrite insert_app_r_alt by lia. rewrite Lh, Nat.sub_diag. cbn [insert list_insert].
        split.
        * unfold opened, opened_ns. rewrite Lp. do 3 f_equal. rewrite <- app_assoc. do 2 f_equal. cbn. do 2 f_equal.
          unfold own. by destruct (length pre + _).
        * intros t. rewrite Lp. rewrite Ev. unfold opened_ns. rewrite (tables_snoc _ _ _ (vs ++ [u])), (tables_snoc _ _ _ vs).
          assert (own (length pre) ((vs ++ [u]) ++ [t]) n0 = own (length pre) (vs ++ [u]) n0) as ->.
          { unfold own. destruct (length pre); [done|]. by destruct vs. }
          rewrite opened_last in Eo.
          assert (h = pre ++ own (length pre) (vs ++ [u]) n0 :: tables (length pre) (S (length pre)) (S (length pre) + dsizes vs) vs) as ->.
          { apply app_inj_1 in Eo as [<- _]; [done|]. rewrite app_length. cbn. rewrite tables_length, Lh. unfold lc. lia. }
          rewrite <- !app_assoc. cbn [app]. do 3 f_equal. fold lc.
          replace (S (length pre) + dsizes (vs ++ [u])) with (length pre + S (dsizes (vs ++ [u]))) by lia. done.
  Qed.

  (** pop_node: the open node becomes a document below the previous one. *)
  Lemma pop_ok pre n0 ks0 pre' n1 a ks c is :
    (forall t, pre' ++ table (length pre) (length pre') 0 t = opened_ns pre n0 (ks0 ++ [t])) ->
    length pre' = length pre + S (dsizes ks0) ->
    own (length pre') ks n1 = fin a (length pre') (blank (length pre) 0 (match ks with [] => 0 | _ => S (length pre') end)) ->
    length pre' <= c -> c < length pre' + S (dsizes ks) ->
    lpop (opened pre' n1 ks c is) = Some (opened pre n0 (ks0 ++ [Doc a ks]) c is) /\
    cached (length pre) (ks0 ++ [Doc a ks]) c.
  Proof.
    intros E L O C1 C2. split.
    - unfold lpop, opened. cbn [l_ptrs l_info l_cur ra]. rewrite (rd_lu _ _ _ (own_lookup _ _ _)). cbn [mbind option_bind].
      rewrite O, fin_parent. cbn [blank parent]. do 3 f_equal. rewrite <- E, table_eq. unfold opened_ns. by rewrite O.
    - intros vs u Eu. apply app_inj_2 in Eu as [<- [= <-]]; [|done]. rewrite dsizes_app, dsizes_one. cbn. unfold dsizes in *. lia.
  Qed.

  Lemma cached_nil k c : cached k [] c.
  Proof. intros vs u E. by destruct vs. Qed.

  (** Shift of the cache to the last child itself. *)
  Lemma cached_last k ks u : cached k (ks ++ [u]) (S k + dsizes ks).
  Proof.
    clear fin_next fin_parent fin. intros vs v E. apply app_inj_2 in E as [-> [= ->]]; [|done]. rewrite dsizes_app, dsizes_one. pose proof (dsize_pos v). lia.
  Qed.
End Build.

Section Infos.
  Context {A I : Type} (inf : A -> I).
  Fixpoint dinfos (t : doc A) : list I := match t with Doc a ks => inf a :: concat (map dinfos ks) end.
  Lemma dinfos_length t : length (dinfos t) = dsize t.
  Proof.
    induction t as [a ks IH] using doc_ind'. cbn. f_equal.
    induction IH as [|t ts Ht _ IH]; [done|]. cbn. rewrite app_length, Ht, IH. done.
  Qed.
End Infos.

Arguments opened {A I} fin pre n0 ks c is.
Arguments opened_ns {A} fin pre n0 ks.

(** The numbered tree of a document, and its table. *)
From Verif Require Import DfsProof.

Section Tree.
  Context {A : Type} (fin : A -> nat -> node -> node).
  Fixpoint number_doc (k : nat) (t : doc A) : tree :=
    match t with
    | Doc a ks => T k ((fix go j ks := match ks with [] => [] | t :: ts => number_doc j t :: go (j + dsize t) ts end) (S k) ks)
    end.
  Fixpoint number_docs (j : nat) (ks : list (doc A)) : list tree :=
    match ks with [] => [] | t :: ts => number_doc j t :: number_docs (j + dsize t) ts end.
  Lemma number_doc_eq k a ks : number_doc k (Doc a ks) = T k (number_docs (S k) ks).
  Proof. reflexivity. Qed.

  Lemma root_number k t : root (number_doc k t) = k.
  Proof. by destruct t. Qed.

  Lemma number_nodes t : forall k, nodes (number_doc k t) = seq k (dsize t).
  Proof.
    induction t as [a ks IH] using doc_ind'. intros k. rewrite number_doc_eq. cbn [nodes dsize seq]. f_equal.
    generalize (S k). induction IH as [|t ts Ht _ IH]; intros j; [done|]. cbn. rewrite Ht, IH, seq_app. done.
  Qed.

  (** The nodes of a document that may have children keep their links. *)
  Fixpoint doc_all (P : A -> list (doc A) -> Prop) (t : doc A) : Prop :=
    match t with Doc a ks => P a ks /\ (fix go ks := match ks with [] => True | t :: ts => doc_all P t /\ go ts end) ks end.
  Lemma doc_all_eq P a ks : doc_all P (Doc a ks) <-> P a ks /\ Forall (doc_all P) ks.
  Proof.
    cbn. assert (forall ks, (fix go ks := match ks with [] => True | t :: ts => doc_all P t /\ go ts end) ks <-> Forall (doc_all P) ks) as H.
    { induction ks0 as [|t ts IH]; [by split|]. rewrite Forall_cons, <- IH. done. }
    by rewrite H.
  Qed.

  Definition plain_links (a : A) (ks : list (doc A)) : Prop :=
    forall k p nx, let n := fin a k (blank p nx (match ks with [] => 0 | _ => S k end)) in
      parent n = p /\ next n = nx /\
      match ks with [] => expandable n = false | _ => first_child n = S k /\ is_ref n = false end.

  Lemma table_tree t : forall pre p nx post, doc_all plain_links t -> length pre <> 0 ->
    tree_at (pre ++ table fin p (length pre) nx t ++ post) p nx (number_doc (length pre) t).
  Proof.
    induction t as [a ks IH] using doc_ind'. intros pre p nx post W Z. rewrite number_doc_eq, table_eq.
    apply doc_all_eq in W as [W Ws]. rewrite tree_at_eq. specialize (W (length pre) p nx). cbv zeta in W.
    set (n := fin a (length pre) _) in *. exists n.
    split; [by rewrite lookup_app_r, Nat.sub_diag by lia|]. split; [done|]. destruct W as (W1 & W2 & W3).
    split; [done|]. split; [done|].
    destruct ks as [|t0 ts0].
    { rewrite W3. done. }
    destruct W3 as [W3 W4]. unfold expandable. rewrite W3, W4. cbn [Nat.eqb negb andb].
    split; [cbn; by rewrite root_number|]. split; [done|].
    assert (forall pre', S (length pre) <= length pre' -> trees_at (pre' ++ tables fin (length pre) (length pre') 0 (t0 :: ts0) ++ post) (length pre) (number_docs (length pre') (t0 :: ts0))) as G.
    { clear n W1 W2 W3 W4. revert IH Ws. generalize (t0 :: ts0) as ts. intros ts IH Ws. induction IH as [|t ts Ht _ IH]; intros pre' L; [done|].
      apply Forall_cons in Ws as [W Ws].
      cbn [tables number_docs trees_at]. rewrite <- app_assoc. split.
      - assert (hd_idx (number_docs (length pre' + dsize t) ts) = match ts with [] => 0 | _ => length pre' + dsize t end) as ->.
        { destruct ts; cbn; [done|]. apply root_number. }
        apply Ht; [done|lia].
      - specialize (IH Ws (pre' ++ table fin (length pre) (length pre') (match ts with [] => 0 | _ => length pre' + dsize t end) t)).
        rewrite app_length, table_length, <- app_assoc in IH. apply IH. lia. }
    specialize (G (pre ++ [n])). rewrite app_length, Nat.add_1_r, <- app_assoc in G. apply G. lia.
  Qed.
End Tree.
