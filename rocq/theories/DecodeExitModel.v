(** Model of how tools/emv-decode.c ends: the exit status of main and the streams it writes to.  What is decoded is
    that of DecodeModel.v; here also --version and --iso8859-x, which end the program while the options are parsed,
    and the result of emv_strings_init. *)
From Coq Require Import String.
From Verif Require Import Base StrModel ToolsModel PrintModel DecodeModel.
Open Scope string_scope.
Open Scope Z_scope.
Open Scope list_scope.
Notation length := List.length.

(** emv-decode.c:98-193, the options; [About] is --version or --iso8859-x. *)
Inductive dopt := Plain (o : opt) | About.
(** What is written: by main, or by argp and the options of [About]. *)
Inductive said := Streams (stdout stderr : list Z) | Helped | Complained (t : string) | Told.

(** argp passes the options in order; emv-decode.c:278-313: [About] calls exit(EXIT_SUCCESS). *)
Fixpoint parse_dopts (junk : nat -> list Z) (s : state) (l : list dopt) : out (option step) :=
  match l with
  | [] => Ret (Some (Next s))
  | About :: _ => Ret None
  | Plain o :: l =>
    let* y := parse_argument junk s (AOption o) in
    match y with Next s => parse_dopts junk s l | Usage t => Ret (Some (Usage t)) end
  end.
Definition warning : list Z :=
  lit "Failed to load iso-codes data or mcc-codes data; currency, country, language or MCC lookups may not be possible" ++ newline.
(** emv-decode.c:410-951, main (but for the command line of "--" alone); [opts] and [args] are the command line, [strings] the result of emv_strings_init.
    argp_error ends with EX_USAGE. *)
Definition main_decode (c : codes) (short long beyond : list Z) (junk : nat -> list Z) (stdin : option (list Z)) (strings : Z)
  (opts : list dopt) (args : list (list Z)) : out (Z * said) :=
  match opts, args with
  | [], [] => Ret (1, Helped)                                                 (* 414-418 *)
  | _, _ =>
    let* x := parse_dopts junk (mkState None [] [] false stdin) opts in
    match x with
    | None => Ret (0, Told)
    | Some (Usage t) => Ret (64, Complained t)
    | Some (Next s) =>
      let* y := parse_arguments junk s (match args with [] => [ANone] | _ => map AInput args end) in
      match y with
      | Usage t => Ret (64, Complained t)
      | Next s =>
        if strings <? 0 then Ret (2, Streams [] (lit "Failed to initialise EMV strings" ++ newline))
        else
        let warn := if 0 <? strings then warning else [] in
        match s_mode s with
        | None => Ret (0, Helped)
        | Some m =>
          let* (a, b) := decode c short long beyond (s_pad s) m (s_data s) (s_arg s) in Ret (0, Streams a (warn ++ b))
        end
      end
    end
  end.
