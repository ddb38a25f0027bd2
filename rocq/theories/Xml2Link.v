(** mr_add_child hanging a complete document below an open node, as mr_xml2_load does
    (the other loaders hang a node before it has children). *)
From Verif Require Import Base Ptrs Parse ParseProof.

Section Link.
  Context {A : Type} (fin : A -> nat -> node -> node)
    (fin_next : forall a k n v, set_next (fin a k n) v = fin a k (set_next n v))
    (fin_parent : forall a k n, parent (fin a k n) = parent n)
    (fin_par : forall a k n v, set_parent (fin a k n) v = fin a k (set_parent n v)).

  Lemma table_head p k nx t : exists n l, table fin p k nx t = n :: l /\ parent n = p /\ next n = nx /\
    forall p', table fin p' k nx t = set_parent n p' :: l.
  Proof.
    destruct t as [a ks]. rewrite table_eq. eexists _, _. split; [done|]. split; [by rewrite fin_parent|]. split.
    - change (blank p nx (match ks with [] => 0 | _ => S k end)) with (set_next (blank p 0 (match ks with [] => 0 | _ => S k end)) nx).
      by rewrite <- fin_next.
    - intros p'. rewrite table_eq. by rewrite fin_par.
  Qed.

  (** The last of a list of siblings. *)
  Lemma scan_tables par u vs : forall f pre post, length vs < f -> 0 < length pre ->
    scan_last f (pre ++ tables fin par (length pre) 0 (vs ++ [u]) ++ post) (length pre) = Some (length pre + dsizes vs).
  Proof.
    induction vs as [|t vs IH]; intros f pre post L Lp; (destruct f as [|f]; [cbn in L; lia|]); cbn [scan_last].
    - cbn [app tables]. rewrite app_nil_r. destruct (table_head par (length pre) 0 u) as (n & l & E & _ & Nx & _). rewrite E.
      unfold rd. rewrite lookup_app_r, Nat.sub_diag by lia. cbn. rewrite Nx. cbn. unfold dsizes. cbn. by rewrite Nat.add_0_r.
    - cbn [app tables]. set (nx := match vs ++ [u] with [] => 0 | _ => length pre + dsize t end).
      assert (nx = length pre + dsize t) as Enx by (unfold nx; by destruct vs).
      destruct (table_head par (length pre) nx t) as (n & l & E & _ & Nx & _).
      unfold rd. rewrite lookup_app_r, Nat.sub_diag by lia. rewrite E at 1. cbn [app lookup list_lookup mbind option_bind]. rewrite Nx.
      destruct (Nat.eqb_spec nx 0) as [?|_]; [lia|].
      specialize (IH f (pre ++ table fin par (length pre) nx t) post). rewrite app_length, table_length, <- Enx in IH.
      rewrite <- !app_assoc in *. rewrite Enx in *. rewrite IH by (cbn in *; lia). rewrite dsizes_cons. f_equal. lia.
  Qed.

  (** Climbing out of a document that hangs nowhere. *)
  Lemma climb_out O d par c f : par <> 0 -> par < length O -> length O <= c -> c < length O + dsize d -> S c < f ->
    climb_to f (O ++ table fin 0 (length O) 0 d) par c = Some 0.
  Proof.
    intros Z Lp. revert f. induction c as [c IH] using (well_founded_induction lt_wf). intros f L1 L2 Lf.
    destruct f as [|f]; [lia|]. cbn [climb_to]. destruct (Nat.eqb_spec c 0); [lia|].
    destruct (lookup_lt_is_Some_2 (table fin 0 (length O) 0 d) (c - length O)) as [m En]; [rewrite table_length; lia|].
    unfold rd. rewrite lookup_app_r by lia. rewrite En. cbn. apply (table_parents fin fin_next fin_parent) in En as [[E ->]|E].
    - destruct (Nat.eqb_spec 0 par); [lia|]. destruct f; [lia|]. done.
    - destruct (Nat.eqb_spec (parent m) par); [lia|]. apply IH; lia.
  Qed.

  Lemma own_fc (pre : list node) n0 (vs : list (doc A)) u : length pre <> 0 -> first_child (own (A := A) (length pre) (vs ++ [u]) n0) = S (length pre).
  Proof. unfold own. destruct (length pre); [done|]. by destruct vs. Qed.

  Lemma link_ok pre n0 ks d c : length pre <> 0 -> first_child n0 = 0 ->
    (forall vs u, ks = vs ++ [u] -> c = S (length pre) + dsizes vs \/
       (length (opened_ns fin pre n0 ks) <= c /\ c < length (opened_ns fin pre n0 ks) + dsize d)) ->
    add_child (Ptrs (opened_ns fin pre n0 ks ++ table fin 0 (length (opened_ns fin pre n0 ks)) 0 d) c) (length pre)
      (length (opened_ns fin pre n0 ks)) =
    Some (Ptrs (opened_ns fin pre n0 (ks ++ [d])) (length (opened_ns fin pre n0 ks))).
  Proof.
    intros Z F C. set (O := opened_ns fin pre n0 ks) in *. set (D := table fin 0 (length O) 0 d).
    assert (length O = length pre + S (dsizes ks)) as Lo by apply opened_length.
    assert (O !! length pre = Some (own (length pre) ks n0)) as Ow by apply own_lookup.
    destruct (table_head 0 (length O) 0 d) as (m & l & Ed & Pm & Nm & Ep). fold D in Ed.
    assert (forall b, upd (O ++ D) (length O) b = Some (O ++ b m :: l)) as U1.
    { intros b. unfold upd, rd. rewrite lookup_app_r, Nat.sub_diag by lia. rewrite Ed. cbn [lookup list_lookup mbind option_bind].
      rewrite wr_Some by (rewrite app_length; cbn; lia). rewrite insert_app_r_alt, Nat.sub_diag by lia. done. }
    assert (O ++ set_parent m (length pre) :: l = O ++ table fin (length pre) (length O) 0 d) as E1 by (by rewrite Ep).
    assert (forall X, (O ++ X) !! length pre = Some (own (length pre) ks n0)) as Ow' by (intros X; rewrite lookup_app_l; [done|lia]).
    unfold add_child. destruct ks as [|u vs _] using rev_ind.
    - assert (own (length pre) ([] : list (doc A)) n0 = n0) as On by (by destruct (length pre)).
      assert (last_child_for_parent (Ptrs (O ++ D) c) (length pre) = Some (0, Ptrs (O ++ D) c)) as ->.
      { unfold last_child_for_parent. cbn [ra]. unfold rd. rewrite Ow', On. destruct (Nat.eqb_spec (length pre) 0); [done|]. cbn. by rewrite F. }
      cbn [mbind option_bind ra]. rewrite U1. cbn [mbind option_bind]. destruct (Nat.eqb_spec (length pre) 0); [done|].
      rewrite E1. unfold rd. rewrite Ow', On. cbn [mbind option_bind]. rewrite F. cbn [Nat.eqb].
      unfold upd, rd. rewrite Ow', On. cbn [mbind option_bind].
      rewrite (wr_Some (O ++ _)) by (rewrite app_length; lia). cbn [mbind option_bind]. do 2 f_equal.
      rewrite insert_app_l by lia. assert (forall y, <[length pre:=y]> O = pre ++ [y]) as -> by (intros y; unfold O, opened_ns; rewrite insert_app_r_alt, Nat.sub_diag by lia; done).
      unfold opened_ns. cbn [tables app]. rewrite <- app_assoc. f_equal. cbn [app]. rewrite app_nil_r. f_equal.
      + unfold own. destruct (length pre) eqn:El; [done|]. f_equal. rewrite Lo. unfold dsizes. cbn. lia.
      + f_equal. rewrite Lo. unfold dsizes. cbn. lia.
    - set (lc := S (length pre) + dsizes vs) in *.
      assert (exists h x r, O = h ++ x :: r /\ length h = lc /\ parent x = length pre /\
        h = pre ++ own (length pre) (vs ++ [u]) n0 :: tables fin (length pre) (S (length pre)) (S (length pre) + dsizes vs) vs /\
        forall nx, set_next x nx :: r = table fin (length pre) lc nx u) as (h & x & r & Eo & Lh & Px & Eh & Ev).
      { unfold O. rewrite opened_last. destruct (table_next fin fin_next (length pre) lc 0 u 0) as (x & r & E & _).
        fold lc. rewrite E. eexists _, x, r. split; [done|]. split; [rewrite app_length; cbn; rewrite tables_length; unfold lc; lia|]. split.
        - destruct (table_head (length pre) lc 0 u) as (x' & r' & E' & P' & _). rewrite E in E'. injection E' as <- <-. done.
        - split; [done|]. intros nx. destruct (table_next fin fin_next (length pre) lc 0 u nx) as (x' & r' & E' & E2). rewrite E in E'. injection E' as <- <-. done. }
      assert (last_child_for_parent (Ptrs (O ++ D) c) (length pre) = Some (lc, Ptrs (O ++ D) lc)) as ->.
      { unfold last_child_for_parent. cbn [ra cache]. unfold rd at 1. rewrite Ow'. destruct (Nat.eqb_spec (length pre) 0); [done|]. cbn [mbind option_bind].
        rewrite own_fc by done. cbn [Nat.eqb]. destruct (C vs u eq_refl) as [->|[C1 C2]].
        - cbn [climb_to]. destruct (Nat.eqb_spec lc 0); [unfold lc in *; lia|]. unfold rd. rewrite Eo, <- app_assoc, lookup_app_r by lia. rewrite Lh, Nat.sub_diag.
          cbn [app lookup list_lookup mbind option_bind]. rewrite Px, Nat.eqb_refl. cbn. destruct (Nat.eqb_spec lc 0); [lia|done].
        - unfold D. rewrite climb_out; [|done|lia|done|done|rewrite app_length, table_length; lia]. cbn [mbind option_bind Nat.eqb].
          assert (O ++ table fin 0 (length O) 0 d = (pre ++ [own (length pre) (vs ++ [u]) n0]) ++ tables fin (length pre) (length (pre ++ [own (length pre) (vs ++ [u]) n0])) 0 (vs ++ [u]) ++ table fin 0 (length O) 0 d) as Es.
          { unfold O at 1, opened_ns. rewrite app_length, Nat.add_1_r, <- !app_assoc. done. }
          rewrite Es at 2. replace (S (length pre)) with (length (pre ++ [own (length pre) (vs ++ [u]) n0])) by (rewrite app_length; cbn; lia).
          rewrite scan_tables.
          + cbn [mbind option_bind]. rewrite app_length, Nat.add_1_r. done.
          + assert (length vs <= dsizes vs) as X. { clear. unfold dsizes. induction vs as [|t vs IH]; [done|]. cbn in *. pose proof (dsize_pos t). unfold list_sum in *. lia. }
            rewrite app_length, Lo, dsizes_app. lia.
          + rewrite app_length. cbn. lia. }
      cbn [mbind option_bind ra]. rewrite U1. cbn [mbind option_bind]. destruct (Nat.eqb_spec (length pre) 0); [done|].
      rewrite E1. unfold rd. rewrite Ow'. cbn [mbind option_bind]. rewrite own_fc by done. cbn [Nat.eqb].
      destruct (Nat.eqb_spec lc 0); [unfold lc in *; lia|]. unfold upd, rd.
      assert ((O ++ table fin (length pre) (length O) 0 d) !! lc = Some x) as Ex.
      { rewrite Eo, <- app_assoc, lookup_app_r by lia. rewrite Lh, Nat.sub_diag. done. }
      rewrite Ex. cbn [mbind option_bind]. rewrite (wr_Some (O ++ _)) by (rewrite app_length; unfold lc in *; rewrite dsizes_app, dsizes_one in Lo; pose proof (dsize_pos u); lia). cbn [mbind option_bind]. do 2 f_equal.
      rewrite insert_app_l by (unfold lc; rewrite Lo, dsizes_app; pose proof (dsize_pos u); rewrite dsizes_one; lia).
      assert (<[lc:=set_next x (length O)]> O = h ++ set_next x (length O) :: r) as ->.
      { rewrite Eo at 2. rewrite insert_app_r_alt by lia. rewrite Lh, Nat.sub_diag. done. }
      rewrite Ev, Eh. unfold opened_ns. rewrite (tables_snoc _ _ _ _ (vs ++ [u])), (tables_snoc _ _ _ _ vs).
      assert (own (length pre) ((vs ++ [u]) ++ [d]) n0 = own (length pre) (vs ++ [u]) n0) as ->.
      { unfold own. destruct (length pre); [done|]. by destruct vs. }
      rewrite <- !app_assoc. cbn [app]. do 2 f_equal. rewrite <- ?app_assoc. fold lc. rewrite Lo. replace (S (length pre) + dsizes (vs ++ [u])) with (length pre + S (dsizes (vs ++ [u]))) by lia. done.
  Qed.
End Link.
