(** * Variants: ways to write a schema differently.

    Specification only: relations between what two texts say (see [Syntax]). *)

From Coq Require Export Permutation.
From Verif Require Export Syntax.
From Verif Require Import Validity.

(** ** A reference read from its other end *)
Definition opposite (r : relation_t) : relation_t :=
  match r with One2Many => Many2One | Many2One => One2Many | _ => r end.
Definition turned (r : a_ref) : a_ref := mkARef (f_name r) (opposite (f_rel r)) (f_rhs r) (f_lhs r) (f_settings r).
Inductive turned_text : a_schema -> a_schema -> Prop :=
| tn_nil : turned_text [] []
| tn_same x a b : turned_text a b -> turned_text (x :: a) (x :: b)
| tn_ref r a b : turned_text a b -> turned_text (ARef r :: a) (ARef (turned r) :: b).

(** ** A reference written in the column or as a block *)
Definition with_cols (t : a_table) (cols : list a_col) : a_table :=
  mkATable (t_schema t) (t_name t) (t_alias t) (t_settings t) cols (t_notes t) (t_indexes t).
(** Reference [r] of column [c] of table [t] becomes a [Ref] block; settings that are
    then empty may be left out. *)
Inductive moved_out : a_schema -> a_schema -> Prop :=
| mo_intro a1 a2 t l1 c l2 l r1 r r2 st n :
    t_cols t = l1 ++ c :: l2 -> c_settings c = Some (mkColSet l (r1 ++ r :: r2)) ->
    (st = Some (mkColSet l (r1 ++ r2)) \/ (st = None /\ l = [] /\ r1 ++ r2 = [])) ->
    moved_out (a1 ++ ATable t :: a2)
      ((a1 ++ ATable (with_cols t (l1 ++ mkCol (c_name c) (c_type c) st :: l2)) :: a2) ++
       [ARef (mkARef n (fst r) (mkEnd (t_schema t) (t_name t) [c_name c]) (snd r) None)]).

(** ** Order *)
Definition same_attrs (o o' : option (list a_attr)) : Prop :=
  match o, o' with Some l, Some l' => Permutation l l' | None, None => True | _, _ => False end.
Definition shuffled_col (c c' : a_col) : Prop :=
  c_name c = c_name c' /\ c_type c = c_type c' /\
  match c_settings c, c_settings c' with
  | Some x, Some y => Permutation (s_attrs x) (s_attrs y) /\ Permutation (s_refs x) (s_refs y)
  | None, None => True
  | _, _ => False
  end.
Definition shuffled_index (d d' : a_index) : Prop := x_cols d = x_cols d' /\ same_attrs (x_settings d) (x_settings d').
(** The same block with its columns, enum values, group items, properties and
    settings in another order.  Index definitions and the columns of an index and of a
    reference keep their order. *)
Inductive shuffled : a_block -> a_block -> Prop :=
| sh_project n ps ps' ns : Permutation ps ps' -> shuffled (AProject (mkAProject n ps ns)) (AProject (mkAProject n ps' ns))
| sh_table sc n al st st' cols cols1 cols' ns ixs ixs' : same_attrs st st' -> Permutation cols cols1 -> Forall2 shuffled_col cols1 cols' ->
    Forall2 (Forall2 shuffled_index) ixs ixs' ->
    shuffled (ATable (mkATable sc n al st cols ns ixs)) (ATable (mkATable sc n al st' cols' ns ixs'))
| sh_group n st st' ns l l' : same_attrs st st' -> Permutation l l' -> shuffled (AGroup (mkAGroup n st ns l)) (AGroup (mkAGroup n st' ns l'))
| sh_note v : shuffled (ANote v) (ANote v)
| sh_ref n x e e' st st' : same_attrs st st' -> shuffled (ARef (mkARef n x e e' st)) (ARef (mkARef n x e e' st'))
| sh_enum sc n l l1 l' : Permutation l l1 -> Forall2 (fun v v' => fst v = fst v' /\ same_attrs (snd v) (snd v')) l1 l' ->
    shuffled (AEnum (mkAEnum sc n l)) (AEnum (mkAEnum sc n l')).
Definition reordered (a b : a_schema) : Prop := exists m, Permutation a m /\ Forall2 shuffled m b.

(** ** Annotations *)
(** The settings [l'] say the same as [l] about the keys [ks], each key once. *)
Definition edited (ks : list string) (l l' : list a_attr) : Prop :=
  once l' /\ forall k v, In k ks -> (In (s k, v) l <-> In (s k, v) l').
Definition col_edited (c c' : a_col) : Prop :=
  c_name c = c_name c' /\ c_type c = c_type c' /\ col_links c = col_links c' /\
  edited ["pk"; "primary key"; "unique"; "null"; "not null"; "default"]%string (col_attrs c) (col_attrs c').
Definition index_edited (d d' : a_index) : Prop :=
  x_cols d = x_cols d' /\ (x_settings d = None <-> x_settings d' = None) /\
  edited ["pk"; "unique"; "type"]%string (idx_attrs d) (idx_attrs d').
Definition table_edited (t t' : a_table) : Prop :=
  t_schema t = t_schema t' /\ t_name t = t_name t' /\ t_alias t = t_alias t' /\ once_opt (t_settings t') /\
  Forall2 col_edited (t_cols t) (t_cols t') /\ Forall2 index_edited (defs_of t) (defs_of t').
Definition enum_edited (e e' : a_enum) : Prop :=
  m_schema e = m_schema e' /\ m_name e = m_name e' /\ map fst (m_values e) = map fst (m_values e') /\
  Forall (fun v => once_opt (snd v)) (m_values e').
(** [b] is [a] with other notes (in blocks or settings), another project, other table
    group settings, other reference names and settings, and other column, index, table
    and enum value settings, except those that declare keys, nullability, defaults and
    index types. *)
Record reannotated (a b : a_schema) : Prop := {
  ra_project : exists p, projects_of b = [p] /\ NoDup (map fst (p_props p));
  ra_tables : Forall2 table_edited (tables_of a) (tables_of b);
  ra_enums : Forall2 enum_edited (enums_of a) (enums_of b);
  ra_groups : Forall2 (fun g g' => g_name g = g_name g' /\ g_items g = g_items g') (groups_of a) (groups_of b);
  ra_refs : Forall2 (fun r r' => f_rel r = f_rel r' /\ f_lhs r = f_lhs r' /\ f_rhs r = f_rhs r' /\ once_opt (f_settings r')) (refs_of a) (refs_of b) }.

(** ** Renaming schemas, tables (with aliases) and columns *)
Section Rename.
  Variables rs rt rc : str -> str.
  Definition rn_end (e : a_end) : a_end := mkEnd (option_map rs (e_schema e)) (rt (e_table e)) (map rc (e_cols e)).
  Definition rn_col (c : a_col) : a_col :=
    mkCol (rc (c_name c)) (c_type c)
      (option_map (fun st => mkColSet (s_attrs st) (map (fun r => (fst r, rn_end (snd r))) (s_refs st))) (c_settings c)).
  Definition rn_index (d : a_index) : a_index :=
    mkIndex (map (fun c => match c with IName w => IName (rc w) | IExpr v => IExpr v end) (x_cols d)) (x_settings d).
  Definition rn_block (b : a_block) : a_block :=
    match b with
    | ATable t => ATable (mkATable (option_map rs (t_schema t)) (rt (t_name t)) (option_map rt (t_alias t)) (t_settings t)
        (map rn_col (t_cols t)) (t_notes t) (map (map rn_index) (t_indexes t)))
    | AGroup g => AGroup (mkAGroup (g_name g) (g_settings g) (g_notes g) (map (fun d => (option_map rs (fst d), rt (snd d))) (g_items g)))
    | ARef r => ARef (mkARef (f_name r) (f_rel r) (rn_end (f_lhs r)) (rn_end (f_rhs r)) (f_settings r))
    | _ => b
    end.
  Definition rename (a : a_schema) : a_schema := map rn_block a.
End Rename.
(** Different names stay different, and the default schema keeps its name. *)
Definition injective (f : str -> str) : Prop := forall x y, f x = f y -> x = y.
Definition proper_renaming (rs rt rc : str -> str) : Prop :=
  injective rs /\ injective rt /\ injective rc /\ rs (s "public") = s "public".

(** [g] takes back what [f] does, and conversely. *)
Definition undoes (f g : str -> str) : Prop := forall x, g (f x) = x /\ f (g x) = x.

(** ** Two schemas in one *)
Definition no_project (b : a_schema) : a_schema := filter (fun x => match x with AProject _ => false | _ => true end) b.
(** Nothing in [a] can be mistaken for something in [b]. *)
Record separate (a b : a_schema) : Prop := {
  sp_tables : forall t u, In t (tables_of a) -> In u (tables_of b) -> tname t <> tname u;
  sp_enums : forall e f, In e (enums_of a) -> In f (enums_of b) -> ename e <> ename f;
  sp_groups : forall g h, In g (groups_of a) -> In h (groups_of b) -> g_name g <> g_name h;
  sp_aliases : forall t u w, In t (tables_of a) -> In u (tables_of b) -> t_alias t = Some w -> t_alias u <> Some w /\ t_name u <> w;
  sp_aliases' : forall t u w, In t (tables_of a) -> In u (tables_of b) -> t_alias u = Some w -> t_name t <> w }.
