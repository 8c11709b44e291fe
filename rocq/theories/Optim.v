(** * Optim: what pest's optimizer makes of src/dbml.pest.

    pest_meta 2.7, [optimizer::optimize], run by [#[derive(Parser)]]
    (src/parser/mod.rs:18-20).  Of its passes, [rotate] (right-nested [~] and [|]) and
    [unroll] ([+], [{3}], [{1,2}]) are already applied in [Grammar] (see [PestMeta]); [skip]
    replaces a loop over characters in [@] rules by one search with the same outcome (C64_skip_pass);
    [concatenate] and [factor] find nothing to do in dbml.pest ([PestOk.oschema_from_file]);
    [restore_on_err] concerns the stack operators, which dbml.pest does not
    use.  What is left is [list], which turns [x ~ (y ~ x)*] into [(x ~ y)* ~ x]. *)

From Verif Require Export Grammar.

Definition rule_eq_dec (a b : rule) : {a = b} + {a <> b}.
Proof. decide equality. Defined.
Definition rtype_eq_dec (a b : rtype) : {a = b} + {a <> b}.
Proof. decide equality. Defined.
Definition pexp_eq_dec (a b : pexp) : {a = b} + {a <> b}.
Proof. decide equality; (apply rule_eq_dec || apply rtype_eq_dec || apply N.eq_dec || (apply list_eq_dec; apply N.eq_dec)). Defined.

(** optimizer/lister.rs [list], bottom up. *)
Fixpoint listed (e : pexp) : pexp :=
  match e with
  | ESeq a b =>
      let a' := listed a in
      let b' := listed b in
      match b' with
      | ERep (ESeq y x) => if pexp_eq_dec a' x then ESeq (ERep (ESeq a' y)) x else ESeq a' b'
      | _ => ESeq a' b'
      end
  | EAlt a b => EAlt (listed a) (listed b)
  | EOpt a => EOpt (listed a)
  | ERep a => ERep (listed a)
  | ENot a => ENot (listed a)
  | ERule r t b => ERule r t (listed b)
  | _ => e
  end.

(** The grammar the generated parser runs. *)
Definition oschema : pexp := listed schema.
