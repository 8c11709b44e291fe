(** * Draw: what printing an error of [parse_dbml] gives.

    pest 2.7, [impl Display for pest::error::Error] ([Error::format], [spacing],
    [underline]) with the excerpts [line] and [continued_line] that [Error::new_from_pos] and
    [Error::new_from_span] take; built in src/parser/err.rs:13-31, src/analyzer/err.rs:136-145
    and by the parser pest generates.  [with_path] and [renamed_rules] are not used by /repo.
    A subtraction of [usize] that would go below zero (a panic, or a number near 2^64) is
    [None]. *)

From Verif Require Export Shown.

(** ** Lines *)
(** [&input[pos..]] *)
Definition rest_from (pos : N) (inp : str) : str := skipn (List.length (upto pos inp)) inp.
(** [&input[self.find_line_start()..pos]]: what follows the last line feed. *)
Fixpoint after_lf (y a : str) : str :=
  match a with
  | [] => y
  | c :: r => if c =? 10 then after_lf [] r else after_lf (y ++ [c]) r
  end.
Definition line_before (a : str) : str := after_lf [] a.
(** The lines of a text, each with its line feed.  [find_line_end] goes to the end of the first
    line of what follows a position (its test [self.pos == self.input.len() - 1] does
    not change the answer). *)
Fixpoint lines_of (t : str) : list str :=
  match t with
  | [] => []
  | c :: r =>
      if c =? 10 then [10] :: lines_of r
      else match lines_of r with
           | [] => [[c]]
           | l :: ls => (c :: l) :: ls
           end
  end.
(** [Position::line_of] *)
Definition line_of (inp : str) (pos : N) : str := line_before (upto pos inp) ++ hd [] (lines_of (rest_from pos inp)).
(** [LinesSpan::next]: lines go on while they start no later than the span ends, and not at
    the end of the text. *)
Fixpoint lines_until (ls : list str) (pos stop : N) : list str :=
  match ls with
  | [] => []
  | l :: ls' => if stop <? pos then [] else l :: lines_until ls' (pos + blen l) stop
  end.
(** [Span::lines] *)
Definition span_lines (inp : str) (from to : N) : list str :=
  match lines_until (lines_of (rest_from from inp)) from to with
  | [] => []
  | l :: ls => (line_before (upto from inp) ++ l) :: ls
  end.

(** ** Excerpts *)
(** [replace(&['\r', '\n'][..], "")] *)
Definition no_line_ends (t : str) : str := filter (fun c => negb ((c =? 13) || (c =? 10))) t.
(** [visualize_whitespace]: U+240D for a carriage return, U+240A for a line feed. *)
Definition visualize (t : str) : str := map (fun c => if c =? 13 then 9229 else if c =? 10 then 9226 else c) t.
Definition line_end_char (c : char) : bool := (c =? 10) || (c =? 13).
(** [Error::new_from_pos]: [pos.match_char('\n') || pos.match_char('\r')] *)
Definition visible_at (t : str) : bool := match t with c :: _ => line_end_char c | [] => false end.
(** [Error::new_from_span]: [chars.next()] and then [chars.last()] *)
Definition visible_in (m : str) : bool :=
  match m with
  | [] => false
  | c :: r => line_end_char c || match r with [] => false | _ :: _ => line_end_char (last r 0) end
  end.
Definition last_error {A} (l : list A) : option A := match rev l with [] => None | x :: _ => Some x end.
(** [line] and [continued_line] *)
Definition excerpts (inp : str) (sh : shown_error) : str * option str :=
  let from := sh_from sh in
  match sh_to sh with
  | None => let l := line_of inp from in
            (if visible_at (rest_from from inp) then visualize l else no_line_ends l, None)
  | Some to =>
      let vis := visible_in (skipn (List.length (upto from inp)) (upto to inp)) in
      let ls := span_lines inp from to in
      let sl := hd [] ls in
      (if vis then visualize sl else no_line_ends sl,
       let ll := last_error (tl ls) in if vis then ll else option_map visualize ll)
  end.

(** ** The drawing *)
Definition minus (a b : N) : option N := if a <? b then None else Some (a - b).
Definition spaces (n : nat) : str := List.repeat 32 n.
Definition blanks (t : str) : str := map (fun c => if c =? 9 then 9 else 32) t.
(** [{n:w$}] of a number *)
Definition padded (w : nat) (t : str) : str := spaces (w - List.length t) ++ t.
(** [Error::underline] *)
Definition underline (line : str) (start : N) (stop : option N) : option str :=
  match stop with
  | None => option_map (fun off => blanks (firstn (N.to_nat off) line) ++ s "^---") (minus start 1)
  | Some stop =>
      let swap := stop <? start in
      match (if swap then minus stop 1 else Some start) with
      | None => None
      | Some a =>
          let b := if swap then start + 1 else stop in
          match minus a 1, minus b a with
          | Some off, Some n =>
              Some (blanks (firstn (N.to_nat off) line) ++ [94]
                    ++ (if 1 <? n then List.repeat 45 (N.to_nat n - 2) ++ [94] else []))
          | _, _ => None
          end
      end
  end.
Definition nl : str := [10].
(** [Error::format] *)
Definition draw (inp : str) (sh : shown_error) : option str :=
  let '(line, cont) := excerpts inp sh in
  let '(l, c) := sh_start sh in
  let w := List.length (dec_of_N (match sh_end sh with Some (l', _) => N.max l l' | None => l end)) in
  let bar := spaces w in
  let head := bar ++ s "--> " ++ dec_of_N l ++ s ":" ++ dec_of_N c ++ nl ++ bar ++ s " |" ++ nl
              ++ padded w (dec_of_N l) ++ s " | " ++ line ++ nl in
  match underline line c (option_map snd (sh_end sh)) with
  | None => None
  | Some u =>
      let foot := bar ++ s " | " ++ u ++ nl ++ bar ++ s " |" ++ nl ++ bar ++ s " = " ++ sh_message sh in
      match sh_end sh, cont with
      | Some (l', _), Some cl =>
          option_map (fun gap => head ++ (if 1 <? gap then bar ++ s " | ..." ++ nl else [])
                                 ++ padded w (dec_of_N l') ++ s " | " ++ cl ++ nl ++ foot) (minus l' l)
      | _, _ => Some (head ++ foot)
      end
  end.
(** [Error::to_string] on an error [e] of [parse_dbml inp] *)
Definition print_error (inp : str) (e : error) : option str :=
  match show_error inp e with Some sh => draw inp sh | None => None end.
