(** Model of the command line: [Options] in src/main.rs 20-27, and [main] from the arguments on.

    Of the crate clap (4.6.6) the documented meaning of this declaration is used: [devices] are the positional arguments, any
    number of them; [output] is an option with one value, [-o] or [--output], that can be repeated; [-h], [--help], [-V] and
    [--version] print something else and end the program, as every mistake does ([None] here).  A value or positional
    argument that is empty is a mistake (the parser of [PathBuf] refuses it); one that starts with a hyphen is taken for an
    option, unless it is the hyphen alone, is attached to its option, or is a positional argument behind [--]. *)

From Coq Require Import Strings.String.
From Verif Require Import Base Io Device Array Main Text Ext4String.

Inductive argument : Type :=
| ArgEscape                                     (* -- *)
| ArgLong (name : bytes) (value : option bytes) (* --name, --name=value *)
| ArgShort (letter : byte) (rest : bytes)       (* -lrest *)
| ArgValue.                                     (* all others *)

Definition hyphen : byte := x2d.
Definition equals : byte := x3d.

Fixpoint split_equals (s : bytes) : bytes * option bytes :=
  match s with
  | [] => ([], None)
  | c :: s => if Byte.eqb c equals then ([], Some s) else let '(n, v) := split_equals s in (c :: n, v)
  end.

Definition lex (a : bytes) : argument :=
  match a with
  | c :: c' :: s =>
      if Byte.eqb c hyphen then
        if Byte.eqb c' hyphen then
          match s with [] => ArgEscape | _ => let '(n, v) := split_equals s in ArgLong n v end
        else ArgShort c' s
      else ArgValue
  | _ => ArgValue
  end.

Definition is_empty (s : bytes) : bool := match s with [] => true | _ => false end.

Record options : Type := Options { opt_devices : list bytes; opt_output : list bytes }.
Definition add_device (a : bytes) (o : option options) : option options :=
  let* o := o in if is_empty a then None else Some (Options (a :: opt_devices o) (opt_output o)).
Definition add_output (a : bytes) (o : option options) : option options :=
  let* o := o in if is_empty a then None else Some (Options (opt_devices o) (a :: opt_output o)).

(** main.rs 29, [Options::parse]. *)
Fixpoint parse_options (args : list bytes) : option options :=
  match args with
  | [] => Some (Options [] [])
  | a :: args =>
      let next := match args with
                  | v :: args => match lex v with ArgValue => add_output v (parse_options args) | _ => None end
                  | [] => None
                  end in
      match lex a with
      | ArgEscape => if existsb is_empty args then None else Some (Options args [])
      | ArgValue => add_device a (parse_options args)
      | ArgLong name value =>
          if bytes_eqb name (lit "output") then match value with Some v => add_output v (parse_options args) | None => next end else None
      | ArgShort letter rest =>
          if Byte.eqb letter x6f then
            match rest with
            | [] => next
            | c :: v => add_output (if Byte.eqb c equals then v else rest) (parse_options args)
            end
          else None
      end
  end.

(** main.rs 28-46 with the arguments of the process.  [output] is not used. *)
Definition program (pol : bytes -> io_policy) (open : opener)
  (order : list (option N * list (md_device osfile)) -> list (option N * list (md_device osfile)))
  (order' : list (N * md_device osfile) -> list (N * md_device osfile)) (args : list bytes) : option (res printed) :=
  let* o := parse_options args in Some (main_program pol open order order' (opt_devices o)).
