(** * Spans: what it means that a range of the input is where something is written
    (specification only; used by C49). *)

From Verif Require Export Nodes Syntax.

(** The bytes [sp] of [inp] are the text [t]; [t], with the layout [g] that follows it
    up to the next symbol, is a way of writing [a]. *)
Definition written {A} (inp : str) (sp : range) (R : reader A) (a : A) : Prop :=
  exists pre t g rest, inp = pre ++ t ++ g ++ rest /\ sp = (blen pre, blen pre + blen t) /\
    lay (g ++ rest) rest /\ R (t ++ g) [] a.

(** A block; of several notes or index blocks in it the AST holds the last. *)
Definition block_text : reader a_block := fun i r b => exists b0, block_r i r b0 /\ settle_block b0 = b.
(** A value: a literal, a bare word, or words in double quotes. *)
Definition value_text : reader value_t := fun i r v =>
  literal_r i r v \/ (exists w, v = VEnum w /\ phrase i r w) \/ (exists w, v = VString w /\ quote dq i r w).
Definition property_text : reader a_prop := fun i r x =>
  exists m m', phrase i m (fst x) /\ tok (s ":") m m' /\ value_text m' r (snd x).
Definition note_text : reader value_t := fun i r v => exists w, v = VString w /\ text i r w.
Definition index_expr_text : reader value_t := fun i r v => exists w, v = VString w /\ quote bq i r w.

(** Every settings list but those of columns (which may hold references). *)
Definition plain_settings (x : schema_t) : list (range * list attribute_t) :=
  flat_map (fun t => opt_list (fun st => (ts_span st, ts_attributes st)) (tb_settings t)) (tables x)
  ++ flat_map (fun g => opt_list (fun st => (gs_span st, gs_attributes st)) (tg_settings g)) (table_groups x)
  ++ map (fun st => (is_span st, is_attributes st)) (all_index_settings x)
  ++ map (fun st => (evs_span st, evs_attributes st)) (all_enum_settings x)
  ++ map (fun st => (rs_span st, rs_attributes st)) (all_ref_settings x).
(** The values of attributes and properties. *)
Definition all_values (x : schema_t) : list literal :=
  flat_map (fun a => opt_list (fun l => l) (at_value a)) (all_attributes x) ++ map pr_value (all_properties x).
(** A name with its schema. *)
Definition qualified (sc : option ident_t) (n : ident_t) : option str * str := (option_map id_str sc, id_str n).
