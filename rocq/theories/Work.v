(** * Work: how much work a parse is.

    [Peg.eval] with a clock.  One unit is one call of a piece of code that pest_generator
    emits for a grammar expression (src/dbml.pest through the derive of src/parser/mod.rs:18-20),
    one round of [ParserState::repeat], one call of [hidden::skip], or one character compared by
    [match_string] / [match_insensitive].  The result of [eval_w] is the result of [Peg.eval] (C65_same_parse).

    Simplification: what each of these steps costs in the machine is not modelled; pest's queue and
    its error bookkeeping take a bounded number of operations per step, except [ParserState::track]
    whose lists are as long as the number of rules tried at one position. *)

From Verif Require Export Grammar.

(** A result, and the clock when it is reached. *)
Definition timed : Set := (pres * N)%type.

Definition tick (n : N) (x : timed) : timed := (fst x, n + snd x).

(** [Peg.bind_res], clocks added. *)
Definition bind_w (r : timed) (off : N) (g : N -> str -> timed) : timed :=
  let '(res, n) := r in
  match res with
  | ROk t1 inp1 ps1 =>
      let '(res2, n2) := g (off + blen t1) inp1 in
      (match res2 with
       | ROk t2 inp2 ps2 => ROk (t1 ++ t2) inp2 (ps1 ++ ps2)
       | RFail => RFail
       | RLoop => RLoop
       end, n + n2)
  | RFail => (RFail, n)
  | RLoop => (RLoop, n)
  end.

(** [Peg.repeat], one unit per round. *)
Fixpoint repeat_w (f : N -> str -> timed) (fuel : nat) (off : N) (inp : str) : timed :=
  match fuel with
  | O => (RLoop, 0)
  | S n =>
      let '(res, c) := f off inp in
      match res with
      | RFail => (ROk [] inp [], 1 + c)
      | RLoop => (RLoop, 1 + c)
      | ROk t inp' ps =>
          let '(res2, c2) := repeat_w f n (off + blen t) inp' in
          (match res2 with
           | ROk t2 inp2 ps2 => ROk (t ++ t2) inp2 (ps ++ ps2)
           | RFail => RFail
           | RLoop => RLoop
           end, 1 + c + c2)
      end
  end.

Section EvalW.
  (** [hidden::skip] with its clock. *)
  Variable skip : str -> timed.

  Definition do_skip_w (a : atomicity) (inp : str) : timed :=
    match a with
    | NonAtomic => tick 1 (skip inp)
    | _ => (ROk [] inp [], 0)
    end.

  (** [Peg.eval], one unit per expression run plus the characters compared. *)
  Fixpoint eval_w (e : pexp) (a : atomicity) (off : N) (inp : str) {struct e} : timed :=
    tick 1
    match e with
    | EStr x | EInsens x => (eval (fun i => fst (skip i)) e a off inp, N.of_nat (List.length x))
    | ERange _ _ | EAny | ESoi | EEnd => (eval (fun i => fst (skip i)) e a off inp, 0)
    | ESeq e1 e2 =>
        bind_w (bind_w (eval_w e1 a off inp) off (fun _ i => do_skip_w a i)) off (eval_w e2 a)
    | EAlt e1 e2 =>
        let '(res, n) := eval_w e1 a off inp in
        match res with
        | RFail => tick n (eval_w e2 a off inp)
        | _ => (res, n)
        end
    | EOpt e1 =>
        let '(res, n) := eval_w e1 a off inp in
        match res with
        | RFail => (ROk [] inp [], n)
        | _ => (res, n)
        end
    | ERep e1 =>
        match a with
        | NonAtomic =>
            let '(res, n) := eval_w e1 a off inp in
            match res with
            | RFail => (ROk [] inp [], n)
            | _ => bind_w (res, n) off
                     (fun off1 inp1 =>
                        repeat_w (fun o i => bind_w (do_skip_w a i) o (eval_w e1 a))
                                 (fuel_for inp1) off1 inp1)
            end
        | _ => repeat_w (eval_w e1 a) (fuel_for inp) off inp
        end
    | ENot e1 =>
        let '(res, n) := eval_w e1 a off inp in
        (match res with
         | RFail => ROk [] inp []
         | ROk _ _ _ => RFail
         | RLoop => RLoop
         end, n)
    | ERule r TNormal body => let '(res, n) := eval_w body a off inp in (emit a r off res, n)
    | ERule r TAtomic body => let '(res, n) := eval_w body Atomic off inp in (emit a r off res, n)
    | ERule r TCompound body => let '(res, n) := eval_w body CompoundAtomic off inp in (emit CompoundAtomic r off res, n)
    end.
End EvalW.

(** [Grammar.skip] with its clock. *)
Definition skip_w (inp : str) : timed := eval_w (fun i => (ROk [] i [], 0)) skip_exp Atomic 0 inp.

(** The work of [DBMLParser::parse(Rule::schema, inp)] (src/parser/mod.rs:58). *)
Definition run_w (e : pexp) (inp : str) : timed := eval_w skip_w e NonAtomic 0 inp.
Definition parse_work (inp : str) : N := snd (run_w schema inp).

(** Number of pairs in a forest, and how deep they nest. *)
Fixpoint pair_count (p : pair) : N :=
  let '(Pair _ _ _ _ inner) := p in 1 + fold_right (fun q n => pair_count q + n) 0 inner.
Definition pairs_count (ps : list pair) : N := fold_right (fun q n => pair_count q + n) 0 ps.
Fixpoint pair_depth (p : pair) : N :=
  let '(Pair _ _ _ _ inner) := p in 1 + fold_right (fun q n => N.max (pair_depth q) n) 0 inner.
Definition pairs_depth (ps : list pair) : N := fold_right (fun q n => N.max (pair_depth q) n) 0 ps.
