(** * TrackSpec: which rules are tried where, said without the error bookkeeping.

    [calls e a lk off inp c]: while [e] is run on [inp] at offset [off], the rule call [c]
    happens: a rule, the offset and the text it is tried on, what is around it, and what
    comes out. *)

From Verif Require Export Track.

Record call : Set := mkCall {
  c_rule : rule; c_type : rtype; c_body : pexp;     (* the rule and its definition *)
  c_ctx : atomicity; c_look : look;                 (* inside an [@] or [$] rule; under a [!] *)
  c_pos : N; c_rest : str }.                        (* where *)
Definition c_exp (c : call) : pexp := ERule (c_rule c) (c_type c) (c_body c).
Definition c_result (c : call) : pres := eval skip (c_exp c) (c_ctx c) (c_pos c) (c_rest c).

Definition inner (t : rtype) (a : atomicity) : atomicity := match t with TNormal => a | TAtomic => Atomic | TCompound => CompoundAtomic end.

(** Where the rounds of a repetition begin. *)
Inductive rounds (e : pexp) (a : atomicity) : N -> str -> N -> str -> Prop :=
| rounds_here off inp : rounds e a off inp off inp
| rounds_next off inp t i1 ps g i2 pg off' inp' :
    eval skip e a off inp = ROk t i1 ps -> do_skip skip a i1 = ROk g i2 pg ->
    rounds e a (off + blen t + blen g) i2 off' inp' -> rounds e a off inp off' inp'.

Inductive calls : pexp -> atomicity -> look -> N -> str -> call -> Prop :=
| calls_first e1 e2 a lk off inp c : calls e1 a lk off inp c -> calls (ESeq e1 e2) a lk off inp c
| calls_second e1 e2 a lk off inp t i1 ps g i2 pg c :
    eval skip e1 a off inp = ROk t i1 ps -> do_skip skip a i1 = ROk g i2 pg ->
    calls e2 a lk (off + blen t + blen g) i2 c -> calls (ESeq e1 e2) a lk off inp c
| calls_left e1 e2 a lk off inp c : calls e1 a lk off inp c -> calls (EAlt e1 e2) a lk off inp c
| calls_right e1 e2 a lk off inp c : eval skip e1 a off inp = RFail -> calls e2 a lk off inp c -> calls (EAlt e1 e2) a lk off inp c
| calls_opt e a lk off inp c : calls e a lk off inp c -> calls (EOpt e) a lk off inp c
| calls_rep e a lk off inp off' inp' c : rounds e a off inp off' inp' -> calls e a lk off' inp' c -> calls (ERep e) a lk off inp c
| calls_not e a lk off inp c : calls e a (flip lk) off inp c -> calls (ENot e) a lk off inp c
| calls_rule r t b a lk off inp : calls (ERule r t b) a lk off inp (mkCall r t b a lk off inp)
| calls_body r t b a lk off inp c : calls b (inner t a) lk off inp c -> calls (ERule r t b) a lk off inp c.

(** [d] happens during [c]. *)
Definition during (c d : call) : Prop := calls (c_exp c) (c_ctx c) (c_look c) (c_pos c) (c_rest c) d.

(** A rule that counts as a reason for failure: it fails where it is asked for, or matches
    where it must not.  Rules inside an [@] rule do not count. *)
Definition visible (c : call) : Prop := c_ctx c <> Atomic \/ c_type c = TCompound.
Definition missed (c : call) : Prop := visible c /\ c_look c <> LkNegative /\ c_result c = RFail.
Definition unwanted (c : call) : Prop := visible c /\ c_look c = LkNegative /\ exists t r ps, c_result c = ROk t r ps.
