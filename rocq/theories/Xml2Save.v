(** What mr_xml2_save makes of a tree. *)
From stdpp Require Import sets.
From Verif Require Import Base Ptrs NumStr NumStrProof Enum Quote XmlQuote QuoteProof XmlQuoteProof DfsProof PruneProof Parse Json JsonLex JsonSpec JsonSave LexProof Scm ScmLex Cinit CinitSave Xml XmlSpec XmlSave Xml2 Xml2Parse Xml2Spec Xml2Explain.
Local Open Scope Z_scope.

(** ** Texts *)
Lemma run_two (a b : Z) r : isxdigit a = true -> isxdigit b = true -> run isxdigit (a :: b :: 59 :: r) = 2%nat.
Proof. intros A B. cbn [run]. by rewrite A, B. Qed.
Lemma hex_up_x d : 0 <= d < 16 -> isxdigit (hex_char_up d) = true.
Proof. intros H. unfold isxdigit, isdigit. destruct (hex_up_range d H); lia. Qed.

Lemma content_hex f a b r : isxdigit a = true -> isxdigit b = true -> content_text (S f) (38 :: 35 :: 120 :: a :: b :: 59 :: r) =
  c ← utf8_char (digit_val a * 16 + digit_val b); s ← content_text f r; Some (c ++ s).
Proof. intros A B. cbn [content_text]. rewrite (run_two a b r A B). cbn [drop take foldl]. by rewrite Z.mul_0_l, Z.add_0_l. Qed.
Lemma content_plain f c r : c <> 38 -> content_text (S f) (c :: r) = s ← content_text f r; Some (c :: s).
Proof. intros N. cbn [content_text]. destruct c as [|c|c]; [done| |done]. do 6 (destruct c as [c|c|]; try done). Qed.

Definition char_text (c : Z) : list Z := if decide (c = 0) then [] else [c].
Lemma content_char ip f c r : 0 <= c < 256 -> ip 0 = false -> c < 128 \/ ip c = true ->
  content_text (S f) (xml_quote_char ip c ++ r) = s ← content_text f r; Some (char_text c ++ s).
Proof.
  intros B P0 H. unfold char_text. destruct (xml_cases ip c) as [(m & -> & <- & I)|[(-> & I & P)|(-> & I & P)]].
  - rewrite !elem_of_cons, elem_of_nil in I. destruct I as [->|[->|[->|[->|[]]]]]; reflexivity.
  - cbn [app]. rewrite content_plain by (intros ->; apply I; by left). destruct (decide (c = 0)) as [->|]; [congruence|]. done.
  - cbn [app]. destruct H as [H|H]; [|congruence].
    assert (0 <= c / 16 < 16) as D1 by (split; [apply Z.div_pos; lia|apply Z.div_lt_upper_bound; lia]). assert (0 <= c mod 16 < 16) as D2 by (apply Z.mod_pos_bound; lia).
    rewrite content_hex by (by apply hex_up_x). rewrite !hex_up_val by done.
    replace (c / 16 * 16 + c mod 16) with c by (pose proof (Z.div_mod c 16 ltac:(lia)); lia).
    unfold utf8_char. destruct (Z.eqb_spec c 0) as [->|N]; [done|]. destruct (Z.ltb_spec c 128); [|lia]. cbn [mbind option_bind].
    rewrite decide_False by done. done.
Qed.
Lemma content_quote ip s : ip 0 = false -> Forall (fun c => 0 < c < 256) s -> Forall (fun c => c < 128 \/ ip c = true) s ->
  forall f, (length s < f)%nat -> content_text f (xml_quote ip s) = Some s.
Proof.
  intros P0 B H. induction s as [|c s IH]; intros f L; (destruct f as [|f]; [cbn in L; lia|]); [done|].
  apply Forall_cons in B as [Bc B]. apply Forall_cons in H as [Hc H]. unfold xml_quote. cbn [map concat].
  rewrite content_char by (done || lia). change (concat (map (xml_quote_char ip) s)) with (xml_quote ip s). rewrite IH by (done || (cbn in L; lia)).
  cbn [mbind option_bind]. unfold char_text. by rewrite decide_False by lia.
Qed.
Lemma content_copy s : Forall (fun c => c <> 38) s -> forall f, (length s < f)%nat -> content_text f s = Some s.
Proof.
  induction 1 as [|c s N _ IH]; intros f L; (destruct f as [|f]; [cbn in L; lia|]); [done|]. rewrite content_plain by done.
  rewrite IH by (cbn in L; lia). done.
Qed.

(** ** Adding elements *)
Fixpoint ids (x : xdoc) : list nat := match x with XE i _ _ ks => i :: concat (map ids ks) | XLeaf _ _ => [] end.
Definition put (par : nat) (new : xdoc) (c : list xdoc) : list xdoc := if Nat.eqb par 0 then c ++ [new] else map (add_elem par new) c.

Lemma add_elem_eq par new i nm ps ks : add_elem par new (XE i nm ps ks) = XE i nm ps (map (add_elem par new) ks ++ if Nat.eqb i par then [new] else []).
Proof.
  cbn [add_elem]. assert (forall l, (fix go ks := match ks with [] => [] | k :: ks => add_elem par new k :: go ks end) l = map (add_elem par new) l) as -> by (induction l as [|k l IH]; [done|]; cbn; by rewrite IH).
  destruct (Nat.eqb i par); [done|]. by rewrite app_nil_r.
Qed.
Lemma add_elem_none par new x : par ∉ ids x -> add_elem par new x = x.
Proof.
  induction x as [i nm ps ks IH|b c] using xdoc_ind'; [|done]. intros N. cbn [ids] in N. rewrite add_elem_eq.
  destruct (Nat.eqb_spec i par) as [->|]; [destruct N; by left|]. rewrite app_nil_r. f_equal.
  assert (par ∉ concat (map ids ks)) as N' by (intros X; apply N; by right). clear N. induction IH as [|k ks Hk _ IH]; [done|]. cbn [map concat] in *.
  rewrite Hk, IH; [done| |]; intros X; apply N'; apply elem_of_app; auto.
Qed.
Lemma add_elems_none par new c : par ∉ concat (map ids c) -> map (add_elem par new) c = c.
Proof.
  induction c as [|x c IH]; [done|]. cbn [map concat]. intros N. rewrite add_elem_none, IH; [done| |]; intros X; apply N; apply elem_of_app; auto.
Qed.
Lemma add_add i x par nm ps ks y : i ∉ ids y -> i ∉ concat (map ids ks) ->
  add_elem i x (add_elem par (XE i nm ps ks) y) = add_elem par (XE i nm ps (ks ++ [x])) y.
Proof.
  intros Ny Nk. induction y as [j m q js IH|b c] using xdoc_ind'; [|done]. cbn [ids] in Ny. rewrite !add_elem_eq.
  destruct (Nat.eqb_spec j i) as [->|]; [destruct Ny; by left|]. rewrite app_nil_r. f_equal. rewrite map_app. f_equal.
  - assert (i ∉ concat (map ids js)) as N' by (intros X; apply Ny; by right). clear Ny. induction IH as [|k js Hk _ IH]; [done|]. cbn [map concat] in *.
    rewrite Hk, IH; [done| |]; intros X; apply N'; apply elem_of_app; auto.
  - destruct (Nat.eqb j par); [|done]. cbn [map]. rewrite add_elem_eq, Nat.eqb_refl. by rewrite add_elems_none.
Qed.
Lemma put_put i x par nm ps ks c : i <> 0%nat -> i ∉ concat (map ids c) -> i ∉ concat (map ids ks) ->
  put i x (put par (XE i nm ps ks) c) = put par (XE i nm ps (ks ++ [x])) c.
Proof.
  intros Z Nc Nk. unfold put. destruct (Nat.eqb_spec i 0); [done|]. destruct (Nat.eqb par 0).
  - rewrite map_app. rewrite add_elems_none by done. f_equal. cbn [map]. rewrite add_elem_eq, Nat.eqb_refl. by rewrite add_elems_none.
  - induction c as [|y c IH]; [done|]. cbn [map concat] in *. rewrite add_add, IH; [done| | |done]; intros X; apply Nc; apply elem_of_app; auto.
Qed.
Lemma ids_add y par new x : y ∈ ids (add_elem par new x) -> y ∈ ids x \/ y ∈ ids new.
Proof.
  induction x as [i nm ps ks IH|b c] using xdoc_ind'; [|by left]. rewrite add_elem_eq. cbn [ids]. rewrite map_app, concat_app, elem_of_cons, elem_of_app.
  intros [->|[H|H]]; [left; by left| |].
  - assert (y ∈ concat (map ids ks) \/ y ∈ ids new) as [X|X]; [|left; by right|by right]. induction IH as [|k ks Hk _ IH]; [by left|]. cbn [map concat] in *.
    apply elem_of_app in H as [H|H]; [destruct (Hk H); [left; apply elem_of_app; auto|by right]|destruct (IH H); [left; apply elem_of_app; auto|by right]].
  - destruct (Nat.eqb i par); [|by apply elem_of_nil in H]. cbn in H. rewrite app_nil_r in H. by right.
Qed.
Lemma ids_put y par new c : y ∈ concat (map ids (put par new c)) -> y ∈ concat (map ids c) \/ y ∈ ids new.
Proof.
  unfold put. destruct (Nat.eqb par 0).
  - rewrite map_app, concat_app, elem_of_app. cbn. rewrite app_nil_r. tauto.
  - induction c as [|x c IH]; [by left|]. cbn [map concat]. rewrite !elem_of_app. intros [H|H]; [apply ids_add in H; tauto|apply IH in H; tauto].
Qed.

Section Save.
  Context (known : list Z -> bool) (isprint : Z -> bool) (wrapv : bool) (buf : list Z) (ns : list node) (js : list xinfo).
  Context (Hbuf : length buf = print_buffer) (Hprint : isprint 0 = false).

  Lemma whandler_ok k : xkind_ok wrapv k -> wchars isprint k -> exists h s, xml_handler isprint wrapv buf k = Some h /\
    content_text (S (length h)) h = Some s /\ (h = [] -> s = []) /\ (k = XNothing -> h = []) /\ says false k s.
  Proof.
    intros K W. destruct k as [|b|t data|s|c|txt|addr]; cbn [xkind_ok xml_handler says wchars] in *.
    - by exists [], [].
    - exists (if b then Json.txt_true else Json.txt_false), (if b then Json.txt_true else Json.txt_false). by destruct b.
    - destruct K as [Kt Kw]. destruct (print_int_ok (fun _ => true) isprint wrapv buf Hbuf Hprint t data Kt Kw) as (neg & ds & E & P & V).
      pose proof P as (N & Fd & _). exists (sgn neg ++ ds), (sgn neg ++ ds). split; [done|]. split; [|split; [done|split; [done|]]].
      + apply content_copy; [|lia]. apply Forall_app. split; [destruct neg; repeat constructor; lia|]. eapply Forall_impl; [exact Fd|]. unfold dig. cbn. intros; lia.
      + exists neg, ds. split; [done|]. split; [exact P|exact V].
    - exists (xml_quote isprint s), s. split; [done|]. pose proof (xml_quoted_length isprint s). split; [apply content_quote; [done|done|done|lia]|].
      split; [|done]. intros E. rewrite E in H. destruct s; [done|cbn in H; lia].
    - exists (xml_quote_char isprint c), (char_text c). split; [done|]. split.
      { pose proof (content_char isprint (length (xml_quote_char isprint c)) c [] K Hprint W) as E. rewrite app_nil_r in E. rewrite E.
        assert (0 < length (xml_quote_char isprint c))%nat as L by apply xml_quote_nonempty. destruct (length (xml_quote_char isprint c)); [lia|]. cbn. by rewrite app_nil_r. }
      split; [intros E; pose proof (xml_quote_nonempty isprint c); rewrite E in *; cbn in *; lia|]. done.
    - exists txt, txt. split; [done|]. split; [|done]. apply content_copy; [|lia]. eapply Forall_impl; [exact K|]. cbn. intros; lia.
    - destruct (hex_digits_ok 16 addr ltac:(lia) ltac:(change (16 ^ Z.of_nat 16) with (2 ^ 64); lia)) as (N & D & Fx & V).
      exists ([48; 120] ++ hex_digits 16 addr), ([48; 120] ++ hex_digits 16 addr). split; [done|]. split; [|split; [done|split; [done|]]].
      + apply content_copy; [|lia]. apply Forall_app. split; [repeat constructor; lia|]. eapply Forall_impl; [exact Fx|]. cbn. intros x Hx ->. done.
      + exists (hex_digits 16 addr). done.
  Qed.

  Lemma prop_number_ok k : Z.of_nat k < 2 ^ 32 -> exists v, prop_number wrapv buf k = Some v /\ prop_value v = Some k.
  Proof.
    intros L. unfold prop_number.
    assert (- 2 ^ 31 <= read_as I32 (Z.of_nat k) < 2 ^ 31 /\ (read_as I32 (Z.of_nat k)) mod 2 ^ 32 = Z.of_nat k) as [R1 R2].
    { unfold read_as. cbn [is_signed width]. change (2 ^ (32 - 1)) with (2 ^ 31). pose proof (Z.mod_pos_bound (Z.of_nat k + 2 ^ 31) (2 ^ 32) ltac:(lia)). split; [lia|].
      rewrite Zminus_mod_idemp_l. replace (Z.of_nat k + 2 ^ 31 - 2 ^ 31) with (Z.of_nat k) by lia. apply Z.mod_small. lia. }
    destruct (print_int_ok (fun _ => true) isprint wrapv buf Hbuf Hprint I32 (Z.of_nat k) ltac:(done)) as (neg & ds & E & P & V); [right; lia|].
    exists (sgn neg ++ ds). split; [exact E|]. unfold prop_value.
    pose proof (parse_decimal neg ds (numeral_value 10 ds) [] 0 (plain_decimal ds P) ltac:(by left)) as Q. change (if neg then [45] else []) with (sgn neg) in Q.
    rewrite <- app_assoc. rewrite Q. cbn [mbind option_bind fst snd]. rewrite drop_all. cbn [forallb]. rewrite V. f_equal.
    replace ((read_as I32 (Z.of_nat k)) mod 2 ^ 128 mod 2 ^ 32) with ((read_as I32 (Z.of_nat k)) mod 2 ^ 32); [lia|].
    apply Znumtheory.Zmod_div_mod; [lia|lia|]. exists (2 ^ 96). reflexivity.
  Qed.

  Lemma get_set ps a v b : get_prop (set_prop ps a v) b = if decide (b = a) then Some v else get_prop ps b.
  Proof.
    clear. induction ps as [|[n w] ps IH]; cbn [set_prop get_prop]; [done|]. destruct (decide (a = n)) as [->|N]; cbn [get_prop].
    - by destruct (decide (b = n)).
    - rewrite IH. destruct (decide (b = n)) as [->|]; [|done]. by rewrite decide_False by congruence.
  Qed.

  Definition leaf_text (txt : list xdoc) : list Z := match txt with [XLeaf _ (Some s)] => s | _ => [] end.
  Definition srow (i : nat) (e : xdoc) : Prop :=
    exists n d ps txt xs, e = XE i (tag_name d) ps (txt ++ xs) /\ ns !! i = Some n /\ js !! i = Some d /\ known (tag_name d) = true /\
      get_prop ps txt_isnull = (if x_null d then Some Json.txt_true else None) /\
      (if is_ref n then exists g v, ns !! first_child n = Some g /\ prop_value v = Some (pub_idx g) /\
         get_prop ps txt_ref = (if x_cref d then None else Some v) /\ get_prop ps txt_ref_content = (if x_cref d then Some v else None)
       else get_prop ps txt_ref = None /\ get_prop ps txt_ref_content = None) /\
      (if referenced n then exists v, get_prop ps txt_ref_idx = Some v /\ prop_value v = Some (pub_idx n) else get_prop ps txt_ref_idx = None) /\
      Forall (fun x => is_elem x = true) xs /\ (txt = [] \/ exists s, txt = [XLeaf false (Some s)]) /\
      (if x_null d || is_ref n then txt = [] /\ xs = []
       else if Nat.eqb (first_child n) 0 then xs = [] /\ says false (x_kind d) (leaf_text txt)
       else txt = [] /\ xs <> [] /\ x_kind d = XNothing).

  Context (t0 : tree) (Hpub : forall i m, i ∈ nodes t0 -> ns !! i = Some m -> Z.of_nat (pub_idx m) < 2 ^ 32)
    (Hin : forall i, i ∈ nodes t0 -> exists m, ns !! i = Some m).

  Lemma wpre_ok i par nxt ks : tree_at ns par nxt (T i ks) -> wnode_ok known isprint wrapv ns js t0 i -> i ∈ nodes t0 ->
    exists d ps txt, i <> 0%nat /\ trees_at ns i ks /\ (txt = [] \/ exists s, txt = [XLeaf false (Some s)]) /\
      (forall c, xml2_pre isprint wrapv buf js ns c i = Some (put par (XE i (tag_name d) ps txt) c)) /\
      (forall xs, Forall (fun x => is_elem x = true) xs -> length xs = length ks -> srow i (XE i (tag_name d) ps (txt ++ xs))).
  Proof.
    rewrite tree_at_eq. intros (n & En & Zi & Pn & Nn & X) (n' & d & En' & Ed & K & Y) Ii. rewrite En in En'. injection En' as <-.
    assert (exists ps1, (if is_ref n then m ← rd ns (first_child n); v ← prop_number wrapv buf (pub_idx m); Some (set_prop [] (if x_cref d then txt_ref_content else txt_ref) v) else Some []) = Some ps1 /\
      get_prop ps1 txt_ref_idx = None /\ get_prop ps1 txt_isnull = None /\
      (if is_ref n then exists g v, ns !! first_child n = Some g /\ prop_value v = Some (pub_idx g) /\
         get_prop ps1 txt_ref = (if x_cref d then None else Some v) /\ get_prop ps1 txt_ref_content = (if x_cref d then Some v else None)
       else get_prop ps1 txt_ref = None /\ get_prop ps1 txt_ref_content = None)) as (ps1 & E1 & G1 & G2 & G3).
    { destruct (is_ref n); [|by exists []]. destruct (Hin _ Y) as [g Eg]. destruct (prop_number_ok (pub_idx g) (Hpub _ _ Y Eg)) as (v & Ev & Pv).
      unfold rd. rewrite Eg. cbn [mbind option_bind]. rewrite Ev. cbn [mbind option_bind]. eexists. split; [done|]. rewrite !get_set. cbn [get_prop].
      destruct (x_cref d); (split; [by rewrite decide_False|]); (split; [by rewrite decide_False|]); exists g, v;  do 2 (split; [done|]).
      - rewrite decide_False by done. by rewrite decide_True.
      - rewrite decide_True by done. by rewrite decide_False. }
    assert (exists ps2, (if referenced n then v ← prop_number wrapv buf (pub_idx n); Some (set_prop ps1 txt_ref_idx v) else Some ps1) = Some ps2 /\
      (if referenced n then exists v, get_prop ps2 txt_ref_idx = Some v /\ prop_value v = Some (pub_idx n) else get_prop ps2 txt_ref_idx = None) /\
      forall a, a <> txt_ref_idx -> get_prop ps2 a = get_prop ps1 a) as (ps2 & E2 & G4 & G5).
    { destruct (referenced n); [|by exists ps1]. destruct (prop_number_ok (pub_idx n) (Hpub _ _ Ii En)) as (v & Ev & Pv). rewrite Ev. cbn [mbind option_bind]. eexists. split; [done|]. split.
      - exists v. rewrite get_set. by rewrite decide_True.
      - intros a N. rewrite get_set. by rewrite decide_False. }
    assert (exists h s, (if x_null d || is_ref n then Some [] else xml_handler isprint wrapv buf (x_kind d)) = Some h /\
      content_text (S (length h)) h = Some s /\ (h = [] -> s = []) /\ (x_null d || is_ref n = true -> h = []) /\
      (x_null d || is_ref n = false -> (x_kind d = XNothing -> h = []) /\ says false (x_kind d) s)) as (h & s & Eh & Ec & Hs & Hn & Hy).
    { destruct (x_null d || is_ref n) eqn:B; [by exists [], []|]. apply orb_false_iff in B as [B1 B2]. rewrite B1, B2 in Y. destruct Y as (Y1 & Y2 & _).
      destruct (whandler_ok (x_kind d) Y1 Y2) as (h & s & H1 & H2 & H3 & H4 & H5). exists h, s. done. }
    set (txt := if Nat.eqb (length h) 0 then [] else [XLeaf false (Some s)]).
    exists d, (if x_null d then set_prop ps2 txt_isnull Json.txt_true else ps2), txt.
    assert (txt = [] \/ exists s, txt = [XLeaf false (Some s)]) as Ht by (unfold txt; destruct (Nat.eqb (length h) 0); eauto).
    split; [done|]. split; [destruct (expandable n); [by destruct X as (_ & _ & X)|subst ks; done]|]. split; [done|]. split.
    - intros c. unfold xml2_pre. unfold rd. rewrite En, Ed. cbn [mbind option_bind]. unfold rd in E1. rewrite Eh. cbn [mbind option_bind]. rewrite Ec. cbn [mbind option_bind].
      replace (if Nat.eqb (length h) 0 then Some [] else Some [XLeaf false (Some s)]) with (Some txt) by (unfold txt; by destruct (Nat.eqb (length h) 0)).
      cbn [mbind option_bind] in *. rewrite E1. cbn [mbind option_bind]. rewrite E2. cbn [mbind option_bind]. rewrite Pn. unfold put. by destruct (Nat.eqb par 0).
    - intros xs Fx Lx. exists n, d, (if x_null d then set_prop ps2 txt_isnull Json.txt_true else ps2), txt, xs. do 4 (split; [done|]).
      assert (forall a, a <> txt_isnull -> get_prop (if x_null d then set_prop ps2 txt_isnull Json.txt_true else ps2) a = get_prop ps2 a) as Gn.
      { intros a N. destruct (x_null d); [|done]. rewrite get_set. by rewrite decide_False. }
      split; [destruct (x_null d); [rewrite get_set; by rewrite decide_True|by rewrite G5]|].
      split; [rewrite !Gn, !G5 by done; exact G3|]. split; [rewrite Gn by done; exact G4|]. split; [done|]. split; [done|].
      unfold expandable in X. destruct (x_null d || is_ref n) eqn:B.
      + split; [unfold txt; by rewrite (Hn eq_refl)|]. destruct ks; [by destruct xs|]. exfalso.
        apply orb_true_iff in B as [B|B]; [|rewrite B, andb_false_r in X; done]. destruct (is_ref n); [rewrite andb_false_r in X; done|]. rewrite B in Y. rewrite Y in X. done.
      + destruct (Hy eq_refl) as [Hy1 Hy2]. apply orb_false_iff in B as [B1 B2]. rewrite B1, B2 in Y. destruct Y as (_ & _ & Y). rewrite B2, andb_true_r in X.
        destruct (Nat.eqb_spec (first_child n) 0) as [F|F]; cbn [negb] in X.
        * subst ks. split; [by destruct xs|]. unfold txt. destruct (Nat.eqb_spec (length h) 0) as [Lh|Lh]; [|done]. destruct h; [|done]. by rewrite (Hs eq_refl) in Hy2.
        * destruct X as (_ & X & _). split; [unfold txt; by rewrite (Hy1 (Y F))|]. split; [|by apply Y]. destruct xs; [destruct ks; done|done].
  Qed.

  Notation save := (xml2_save_node isprint wrapv buf js).
  Definition wtree_goal (par : nat) (t : tree) : Prop := exists x, Forall2 srow (nodes t) (elems x) /\ ids x = nodes t /\ mirrors t x /\ is_elem x = true /\
    forall lvl c k, (forall y, y ∈ nodes t -> y ∉ concat (map ids c)) -> apply_events save (events lvl t) ns c k = k ns (put par x c).

  Lemma wkids_ok i ks : i <> 0%nat -> i ∉ concat (map nodes ks) -> NoDup (concat (map nodes ks)) -> Forall (wtree_goal i) ks ->
    exists xs, Forall2 srow (concat (map nodes ks)) (concat (map elems xs)) /\ concat (map ids xs) = concat (map nodes ks) /\ mirror_kids ks xs /\
      Forall (fun x => is_elem x = true) xs /\ length xs = length ks /\
      forall lvl par nm ps old c k, i ∉ concat (map ids c) -> i ∉ concat (map ids old) ->
        (forall y, y ∈ concat (map nodes ks) -> y ∉ concat (map ids c) /\ y ∉ concat (map ids old)) ->
        apply_events save (concat (map (events lvl) ks)) ns (put par (XE i nm ps old) c) k = k ns (put par (XE i nm ps (old ++ xs)) c).
  Proof.
    intros Zi Ni Nd G. induction G as [|t ks Ht _ IH].
    { exists []. do 4 (split; [done || constructor|]). split; [done|]. intros. rewrite app_nil_r. done. }
    cbn [map concat] in *. apply NoDup_app in Nd as (N1 & N2 & N3). destruct IH as (xs & X1 & X2 & X3 & X4 & X5 & X6); [intros H; apply Ni; apply elem_of_app; auto|done|].
    destruct Ht as (x & T1 & T2 & T3 & T4 & T5). exists (x :: xs). cbn [map concat]. split; [by apply Forall2_app|]. split; [by rewrite T2, X2|]. split; [by constructor|].
    split; [by constructor|]. split; [cbn; by rewrite X5|]. intros lvl par nm ps old c k Ic Io Dj. rewrite apply_events_app, T5.
    - rewrite put_put by done. rewrite X6.
      + by rewrite <- app_assoc.
      + done.
      + rewrite map_app, concat_app, elem_of_app. cbn. rewrite app_nil_r, T2. intros [H|H]; [done|]. apply Ni. apply elem_of_app. auto.
      + intros y Hy. destruct (Dj y ltac:(apply elem_of_app; auto)) as [D1 D2]. split; [done|]. rewrite map_app, concat_app, elem_of_app. cbn. rewrite app_nil_r, T2.
        intros [H|H]; [done|]. by apply (N2 y).
    - intros y Hy H. destruct (Dj y ltac:(apply elem_of_app; auto)) as [D1 D2]. apply ids_put in H as [H|H]; [done|]. cbn [ids] in H. apply elem_of_cons in H as [->|H]; [|done].
      apply Ni. apply elem_of_app. auto.
  Qed.

  Lemma wtree_ok t : forall par nxt, tree_at ns par nxt t -> NoDup (nodes t) ->
    (forall i, i ∈ nodes t -> i ∈ nodes t0 /\ wnode_ok known isprint wrapv ns js t0 i) -> wtree_goal par t.
  Proof.
    induction t as [i ks IH] using tree_ind'. intros par nxt A Nd Ok. destruct (Ok i ltac:(by left)) as [I0 Ok0].
    destruct (wpre_ok i par nxt ks A Ok0 I0) as (d & ps & txt & Zi & Tk & Ht & Pre & Row). cbn [nodes] in Nd. apply NoDup_cons in Nd as [Ni Nd].
    assert (Forall (wtree_goal i) ks) as Gk.
    { clear Row Pre A Ok0 Ni. induction IH as [|t ks H1 _ IH]; [constructor|]. cbn [trees_at] in Tk. destruct Tk as [Tt Tk]. cbn [map concat] in Nd. apply NoDup_app in Nd as (N1 & _ & N3).
      assert (forall j, j ∈ nodes t \/ j ∈ concat (map nodes ks) -> j ∈ nodes t0 /\ wnode_ok known isprint wrapv ns js t0 j) as Ok'.
      { intros j Hj. apply Ok. cbn [nodes map concat]. right. apply elem_of_app. done. }
      constructor; [eapply H1; [exact Tt|done|auto]|]. apply IH; [done| |done]. cbn [nodes]. intros j Hj. apply elem_of_cons in Hj as [->|Hj]; [by apply Ok; left|auto]. }
    destruct (wkids_ok i ks Zi Ni Nd Gk) as (xs & X1 & X2 & X3 & X4 & X5 & X6).
    assert (concat (map ids txt) = [] /\ concat (map elems txt) = [] /\ forall ts ys, mirror_kids ts ys -> mirror_kids ts (txt ++ ys)) as (L1 & L2 & L3).
    { destruct Ht as [->|[s ->]]; [done|]. split; [done|]. split; [done|]. intros. by constructor. }
    exists (XE i (tag_name d) ps (txt ++ xs)). split; [|split; [|split; [|split]]].
    - cbn [elems nodes]. rewrite map_app, concat_app, L2. constructor; [by apply Row|done].
    - cbn [ids nodes]. rewrite map_app, concat_app, L1, X2. done.
    - constructor. by apply L3.
    - done.
    - intros lvl c k Dj. cbn [events apply_events]. unfold visit, xml2_save_node. rewrite Pre. cbn [mbind option_bind].
      rewrite apply_events_app. rewrite X6.
      + cbn [apply_events]. unfold visit, xml2_save_node. done.
      + apply Dj. cbn [nodes]. by left.
      + rewrite L1. apply not_elem_of_nil.
      + intros y Hy. split; [apply Dj; cbn [nodes]; by right|]. rewrite L1. apply not_elem_of_nil.
  Qed.
End Save.
