(** * AboveSpec: what it means for a report to move down with its text. *)

From Verif Require Import Str Shown Err DrawSpec.

(** [lines g]: how many line ends [g] has. *)
Definition lines (g : str) : N := N.of_nat (List.length (filter (fun c => c =? 10) g)).
(** [n] lines further down, in the same column. *)
Definition down (n : N) (p : N * N) : N * N := (fst p + n, snd p).
(** Whole lines: nothing, or something that ends with a line end. *)
Definition whole_lines (g : str) : Prop := g = [] \/ exists x, g = x ++ [10].
(** The errors about the text as a whole: it has no project block, or more than one. *)
Definition of_whole_text (e : error) : Prop :=
  match e with ErSem DuplicateProjectSetting _ | ErSem ProjectSettingNotFound _ => True | _ => False end.

(** What is shown of an error once [g] has been put above the text. *)
Record moved_below (g : str) (sh sh' : shown_error) : Prop := {
  mb_from : sh_from sh' = sh_from sh + blen g;
  mb_to : sh_to sh' = option_map (fun b => b + blen g) (sh_to sh);
  mb_start : sh_start sh' = down (lines g) (sh_start sh);
  mb_end : sh_end sh' = option_map (down (lines g)) (sh_end sh)
}.

(** The print of an error at [at_]: the source line [excerpt] and, if the marked part goes over
    several lines, the source line [snd last] with its number [fst last]; [w] is the width of
    the larger number. *)
Definition picture (at_ : N * N) (excerpt : str) (last : option (N * str)) (end_line : N) (marks msg : str) : str :=
  let w := List.length (dec_of_N (N.max (fst at_) end_line)) in
  let bar := List.repeat 32 w in
  let num n := List.repeat 32 (w - List.length (dec_of_N n)) ++ dec_of_N n in
  frame bar at_ (num (fst at_)) excerpt
    match last with
    | None => []
    | Some (n, l) => (if fst at_ + 1 <? n then bar ++ s " | ..." ++ [10] else []) ++ num n ++ s " | " ++ l ++ [10]
    end marks msg.
(** [n] lines further down. *)
Definition last_down (n : N) (last : option (N * str)) : option (N * str) :=
  match last with None => None | Some (k, l) => Some (k + n, l) end.
