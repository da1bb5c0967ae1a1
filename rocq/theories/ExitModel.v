(** Model of how tools/emv-tool.c ends: the exit status of main, and the calls of the PC/SC functions
    (src/pcsc.c) that it makes on the way.  What is printed and sent to the card is that of TermModel.v.
    [emv_debug_init] succeeds (src/emv_debug.c:38-49). *)
From Coq Require Import String.
From Verif Require Import Base TlvListModel StrModel AtrModel PcscModel AppModel TalModel EmvModel CapduModel FlagsModel ToolsModel PrintModel DecodeModel TermModel.
Open Scope string_scope.
Open Scope Z_scope.
Open Scope list_scope.
Notation length := List.length.

(** The calls; [CExchange] stands for all the exchanges of the transaction (pcsc_reader_trx). *)
Inductive pcall := CInit | CWait | CConnect | CAtr | CExchange | CDisconnect | CRelease.
(** What the functions return: emv_strings_init, pcsc_init, pcsc_get_reader_count, pcsc_reader_disconnect, and
    those of [presented]. *)
Record world := mkWorld { w_strings : Z; w_init : Z; w_count : Z; w_card : presented; w_disconnect : Z }.

Section Exit.
Context {T : Type} (x : transport T) (junk buf : list Z).

(** emv-tool.c:768-907, as [session]; and whether line 910 is reached, where the card is deactivated. *)
Definition session_x (fuel rounds : nat) (s : T) (t : tm) (o : settings) (i : list Z) : out (list event * bool * T) :=
  let* params := load_params (firstn 6 buf) t 42 (o_type o) (o_amount o) (o_other o) in
  let c := mkCtx true tool_config tool_aids params None [] [] in
  let ev := [Say (newline ++ lit "Terminal config:" ++ newline); Fields tool_config; Say (newline ++ lit "Supported AIDs:" ++ newline); Fields tool_aids;
             Say (newline ++ lit "Transaction parameters:" ++ newline); Fields params; Say (newline ++ lit "Build candidate list" ++ newline)] in
  let* (r, apps, s) := build_candidate_list x junk fuel s c [] in
  if negb (r =? 0) then Ret (ev ++ [report r], false, s) else
  let* shown := print_apps apps in
  let required := selection_required apps in
  let ev := ev ++ [line "Candidate applications:"] ++ shown ++ (if required then [line "Cardholder selection is required"] else []) in
  let* (ok, ev', apps, c, s, i) := select_loop x junk buf rounds s c apps required i in
  let ev := ev ++ ev' in
  if negb ok then Ret (ev, false, s) else
  let* (r, c, s) := read_application_data x fuel s c in
  let ev := ev ++ [Say (newline ++ lit "Read application data" ++ newline)] in
  if negb (r =? 0) then Ret (ev ++ [report r], false, s)
  else Ret (ev ++ [Say (newline ++ lit "ICC data:" ++ newline); Fields (k_icc c); Say (newline ++ lit "Terminal data" ++ newline); Fields (k_term c)], true, s).

(** emv-tool.c:684-929: from pcsc_init on; main has no return statement at its end, which is 0. *)
Definition pcsc_exit (calls : list pcall) (ev : list event) (s : T) : out (Z * list pcall * list event * T) :=
  Ret (0, calls ++ [CRelease], ev, s).
Definition main_card (fuel rounds : nat) (s : T) (t : tm) (o : settings) (w : world) (i : list Z)
  : out (Z * list pcall * list event * T) :=
  let p := w_card w in
  if negb (w_init w =? 0) then pcsc_exit [CInit] [line "PC/SC initialisation failed"] s
  else if w_count w =? 0 then pcsc_exit [CInit] [line "No PC/SC readers detected"] s
  else
  let ev := [Say (newline ++ lit "Present card" ++ newline)] in
  if p_wait p <? 0 then pcsc_exit [CInit; CWait] (ev ++ [line "PC/SC error"]) s
  else if 0 <? p_wait p then pcsc_exit [CInit; CWait] (ev ++ [line "No card; exiting"]) s
  else if p_connect p <? 0 then pcsc_exit [CInit; CWait; CConnect] (ev ++ [line "PC/SC reader activation failed"]) s
  else
  let ev := ev ++ [line "Card activated"] in
  if p_connect p =? TYPE_CONTACT then
    match p_atr p with
    | None => pcsc_exit [CInit; CWait; CConnect; CAtr] (ev ++ [line "Failed to retrieve ATR"]) s
    | Some atr =>
      let* r := emv_atr_parse atr in
      if negb (r =? 0) then pcsc_exit [CInit; CWait; CConnect; CAtr] (ev ++ [report r]) s
      else
      let* (ev', done, s) := session_x fuel rounds s t o i in
      if done : bool then
        let said := if w_disconnect w =? 0 then Say (newline ++ lit "Card deactivated" ++ newline) else line "PC/SC reader deactivation failed" in
        pcsc_exit [CInit; CWait; CConnect; CAtr; CExchange; CDisconnect] (ev ++ ev' ++ [said]) s
      else pcsc_exit [CInit; CWait; CConnect; CAtr; CExchange] (ev ++ ev') s
    end
  else if p_connect p =? TYPE_CONTACTLESS then pcsc_exit [CInit; CWait; CConnect] (ev ++ [line "Contactless not (yet) supported"]) s
  else pcsc_exit [CInit; CWait; CConnect] (ev ++ [line "Unknown card type"]) s.
(** emv-tool.c:619-682.  [args] tells whether there are arguments at all (a command line of the argument "--"
    alone has some, but no options).  argp_error ends with EX_USAGE. *)
Definition main_status (fuel rounds : nat) (s : T) (t : tm) (args : bool) (opts : list toption) (w : world) (i : list Z)
  : out (Z * list pcall * list event * T) :=
  if negb args then Ret (1, [], [], s)
  else match parse_options settings0 opts with
  | Rejected _ => Ret (64, [], [], s)
  | Shown => Ret (0, [], [], s)
  | Accepted o => if w_strings w <? 0 then Ret (2, [], [], s) else main_card fuel rounds s t o w i
  end.
End Exit.
