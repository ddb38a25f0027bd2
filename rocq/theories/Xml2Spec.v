(** Vocabulary for the theorems about the XML2 format, independent of the writer and
    the reader. *)
From Verif Require Import Base Ptrs NumStrProof Cinit Xml DfsProof XmlSpec Xml2.
Local Open Scope Z_scope.

Definition is_elem (x : xdoc) : bool := match x with XE _ _ _ _ => true | XLeaf _ _ => false end.

(** The elements of a document in the order of the opening tags. *)
Fixpoint elems (x : xdoc) : list xdoc :=
  match x with
  | XE _ _ _ ks => x :: concat (map elems ks)
  | XLeaf _ _ => []
  end.

(** A tree with the shape of the elements of a document. *)
Inductive mirrors : tree -> xdoc -> Prop :=
  | Mirrors i ts j nm ps ks : mirror_kids ts ks -> mirrors (T i ts) (XE j nm ps ks)
with mirror_kids : list tree -> list xdoc -> Prop :=
  | M_nil : mirror_kids [] []
  | M_leaf ts b c ks : mirror_kids ts ks -> mirror_kids ts (XLeaf b c :: ks)
  | M_elem t ts x ks : mirrors t x -> mirror_kids ts ks -> mirror_kids (t :: ts) (x :: ks).

(** The value of a property: the first one with the name. *)
Definition has_prop (ps : list (list Z * list Z)) (nm v : list Z) : Prop :=
  exists a b, ps = a ++ (nm, v) :: b /\ Forall (fun p => p.1 <> nm) a.

(** A text that is a number with white space around; it is taken modulo 2^32. *)
Definition has_number (v : list Z) (i : nat) : Prop :=
  exists z e, number_read v 0 z e /\ Forall blank (drop e v) /\ Z.of_nat i = z mod 2 ^ 32.

(** The content of an element is that of the first node in it which is not an element
    and has one. *)
Definition first_content (ks : list xdoc) (c : list Z) : Prop :=
  (exists a b k, ks = a ++ XLeaf b (Some c) :: k /\ Forall (fun x => forall b' c', x <> XLeaf b' (Some c')) a) \/
  (c = [] /\ Forall (fun x => forall b' c', x <> XLeaf b' (Some c')) ks).

(** Elements that are accepted: the name is known, numbers are numbers, and a reference
    has no elements in it. *)
Definition elem_ok (known : list Z -> bool) (x : xdoc) : Prop :=
  match x with
  | XE _ nm ps ks => known nm = true /\
      (forall a v, a = txt_ref_idx \/ a = txt_ref \/ a = txt_ref_content -> has_prop ps a v -> exists i, has_number v i) /\
      (forall a v, a = txt_ref \/ a = txt_ref_content -> has_prop ps a v -> Forall (fun k => is_elem k = false) ks)
  | XLeaf _ _ => False
  end.

(** What is found in the node [m] and the descriptor [r] read for an element. *)
Definition elem_read (x : xdoc) (m : node) (r : winfo) : Prop :=
  match x with
  | XE _ nm ps ks =>
      w_name r = Some nm /\ first_content ks (w_text r) /\
      (w_null r = true <-> exists v, has_prop ps txt_isnull v) /\
      (w_cref r = true <-> exists v, has_prop ps txt_ref_content v) /\
      (is_ref m = true <-> exists v, has_prop ps txt_ref v \/ has_prop ps txt_ref_content v) /\
      (forall v, has_prop ps txt_ref_content v -> has_number v (first_child m)) /\
      (forall v, has_prop ps txt_ref v -> w_cref r = false -> has_number v (first_child m)) /\
      (referenced m = true <-> exists v, has_prop ps txt_ref_idx v) /\
      (forall v, has_prop ps txt_ref_idx v -> has_number v (pub_idx m)) /\
      ((forall v, ~ has_prop ps txt_ref_idx v) -> pub_idx m = 0%nat)
  | XLeaf _ _ => False
  end.

(** Documents which differ from [x] in the way a formatted print of it that is parsed
    again does: an element with elements and nothing else in it gets white space before,
    between and after them; empty texts vanish.  The addresses in [_private] are lost. *)
Definition layout (x : xdoc) : Prop := exists w, x = XLeaf false (Some w) /\ Forall (fun c => c = 10 \/ c = 32) w.
Inductive formatted : xdoc -> xdoc -> Prop :=
  | F_text i j nm ps ks : Forall (fun k => is_elem k = false) ks -> formatted (XE i nm ps ks) (XE j nm ps ks)
  | F_empty i j nm ps ks : Forall (fun k => k = XLeaf false (Some [])) ks -> formatted (XE i nm ps ks) (XE j nm ps [])
  | F_inner i j nm ps ks ks' : ks <> [] -> Forall (fun k => is_elem k = true) ks -> formatted_kids ks ks' -> formatted (XE i nm ps ks) (XE j nm ps ks')
with formatted_kids : list xdoc -> list xdoc -> Prop :=
  | FK_nil : formatted_kids [] []
  | FK_layout w ks ks' : layout w -> formatted_kids ks ks' -> formatted_kids ks (w :: ks')
  | FK_elem x x' ks ks' : formatted x x' -> formatted_kids ks ks' -> formatted_kids (x :: ks) (x' :: ks').

(** Texts libxml2 does not change: a character above 127 is one libc prints. *)
Definition wchars (isprint : Z -> bool) (k : xkind) : Prop :=
  match k with
  | XText s => Forall (fun c => c < 128 \/ isprint c = true) s
  | XChar c => c < 128 \/ isprint c = true
  | _ => True
  end.

(** Nodes that can be saved: the name is known; references point into the tree; only
    structures, arrays and pointers which are not NULL have children. *)
Definition wnode_ok (known : list Z -> bool) (isprint : Z -> bool) (wrapv : bool) (ns : list node) (js : list xinfo) (t : tree) (i : nat) : Prop :=
  exists n d, ns !! i = Some n /\ js !! i = Some d /\ known (default txt_entity (x_name d)) = true /\
    (if is_ref n then first_child n ∈ nodes t
     else if x_null d then first_child n = 0%nat
     else xkind_ok wrapv (x_kind d) /\ wchars isprint (x_kind d) /\ (first_child n <> 0%nat -> x_kind d = XNothing)).

(** What is found in the node [m] and the descriptor [r] read for [n], [d]. *)
Definition wnode_read (ns : list node) (n : node) (d : xinfo) (m : node) (r : winfo) : Prop :=
  w_name r = Some (default txt_entity (x_name d)) /\
  w_cref r = is_ref n && x_cref d /\
  w_null r = x_null d /\
  is_ref m = is_ref n /\ referenced m = referenced n /\
  pub_idx m = (if referenced n then pub_idx n else 0%nat) /\
  (is_ref n = true -> exists g, ns !! first_child n = Some g /\ first_child m = pub_idx g) /\
  (if x_null d || is_ref n then w_text r = [] else says (negb (Nat.eqb (first_child n) 0)) (x_kind d) (w_text r)).
