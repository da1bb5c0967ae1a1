(** Model of the main window of emv-viewer: what the slots of viewer/emv-viewer-mainwindow.cpp do to the document, the
    highlighter and the tree, and the settings.  Qt calls a slot for each event; rehighlight() ends with the signal
    textChanged unless signals are blocked (see the comments at mainwindow.cpp:230-235 and 259-262), and a check box reports
    changes only.  The description panel, geometry and links are not modelled. *)
From Coq Require Import String.
From Verif Require Import Base StrModel InfoModel ViewModel.
Open Scope string_scope.
Open Scope Z_scope.
Open Scope list_scope.
Notation length := List.length.

(** ** The window *)

(** The document, the check boxes, the highlighter (m_ignorePadding, m_emphasiseTags, selection, what parseBlocks left and
    the formats), the tree (m_ignorePadding, m_decodeFields, items) and whether updateTimer runs. *)
Record win := mkWin { w_blocks : list (list Z); w_tags : bool; w_pad : bool; w_dec : bool;
  h_ign : bool; h_emph : bool; h_sel : Z * Z; h_parsed : option parsed; w_fmts : list (list fmt);
  t_ign : bool; t_dec : bool; w_items : list item; w_timer : bool }.
(** mainwindow.cpp:37-72 before loadSettings, with the check boxes of emv-viewer-mainwindow.ui (all unchecked) and an
    empty document; emvhighlighter.h:60-63 *)
Definition win0 : win := mkWin [[]] false false false false false (-1, 0) None [[]] false false [] false.
(** rehighlight; emvhighlighter.cpp:260-265: a block without data gets no format *)
Definition rehighlight (w : win) : out (list (list fmt)) :=
  match h_parsed w with
  | None => Ret (map (fun b => repeat plain_fmt (length b)) (w_blocks w))
  | Some p => highlight_blocks p (h_emph w) (h_sel w) (p_blocks p) (w_blocks w)
  end.
Definition with_fmts (w : win) (f : list (list fmt)) : win :=
  mkWin (w_blocks w) (w_tags w) (w_pad w) (w_dec w) (h_ign w) (h_emph w) (h_sel w) (h_parsed w) f (t_ign w) (t_dec w) (w_items w) (w_timer w).
(** mainwindow.cpp:228-242 [on_dataEdit_textChanged] *)
Definition on_text_changed (w : win) : out win :=
  let* p := parse_blocks (h_ign w) (w_blocks w) in
  let w := mkWin (w_blocks w) (w_tags w) (w_pad w) (w_dec w) (h_ign w) (h_emph w) (h_sel w) (Some p) (w_fmts w) (t_ign w) (t_dec w) (w_items w) true in
  let* f := rehighlight w in
  Ret (with_fmts w f).
(** mainwindow.cpp:172-221 [parseData] *)
Definition parse_data (e : env) (w : win) : out win :=
  let* l := show_data e (t_ign w) (t_dec w) (plain_text (w_blocks w)) in
  Ret (mkWin (w_blocks w) (w_tags w) (w_pad w) (w_dec w) (h_ign w) (h_emph w) (h_sel w) (h_parsed w) (w_fmts w) (t_ign w) (t_dec w) l (w_timer w)).
(** The item at a path of indices. *)
Fixpoint item_at (l : list item) (path : list nat) : option item :=
  match path with
  | [] => None
  | k :: path => match nth_error l k with None => None | Some i => match path with [] => Some i | _ => item_at (i_kids i) path end end
  end.
(** What the user or the timer does: the document becomes [blocks], 200 ms pass, a check box is set, or an item is pressed. *)
Inductive wevent := SetText (blocks : list (list Z)) | Timeout | SetTags (b : bool) | SetPadding (b : bool) | SetDecode (b : bool) | Press (path : list nat).
Definition step (e : env) (w : win) (ev : wevent) : out win :=
  match ev with
  | SetText blocks =>
    on_text_changed (mkWin blocks (w_tags w) (w_pad w) (w_dec w) (h_ign w) (h_emph w) (h_sel w) (h_parsed w) (w_fmts w) (t_ign w) (t_dec w) (w_items w) (w_timer w))
  | Timeout => (* mainwindow.cpp:223-226 [on_updateTimer_timeout]; single shot *)
    if w_timer w
    then parse_data e (mkWin (w_blocks w) (w_tags w) (w_pad w) (w_dec w) (h_ign w) (h_emph w) (h_sel w) (h_parsed w) (w_fmts w) (t_ign w) (t_dec w) (w_items w) false)
    else Ret w
  | SetTags b => (* mainwindow.cpp:244-253 [on_tagsCheckBox_stateChanged] *)
    if Bool.eqb b (w_tags w) then Ret w else
    let w := mkWin (w_blocks w) b (w_pad w) (w_dec w) (h_ign w) b (h_sel w) (h_parsed w) (w_fmts w) (t_ign w) (t_dec w) (w_items w) (w_timer w) in
    let* f := rehighlight w in
    Ret (with_fmts w f)
  | SetPadding b => (* mainwindow.cpp:255-266 [on_paddingCheckBox_stateChanged] *)
    if Bool.eqb b (w_pad w) then Ret w else
    let w := mkWin (w_blocks w) (w_tags w) b (w_dec w) b (h_emph w) (h_sel w) (h_parsed w) (w_fmts w) (t_ign w) (t_dec w) (w_items w) (w_timer w) in
    let* f := rehighlight w in
    let* w := on_text_changed (with_fmts w f) in
    parse_data e (mkWin (w_blocks w) (w_tags w) (w_pad w) (w_dec w) (h_ign w) (h_emph w) (h_sel w) (h_parsed w) (w_fmts w) b (t_dec w) (w_items w) (w_timer w))
  | SetDecode b => (* mainwindow.cpp:268-271 [on_decodeCheckBox_stateChanged], emvtreeview.cpp:151-170 *)
    if Bool.eqb b (w_dec w) then Ret w else
    Ret (mkWin (w_blocks w) (w_tags w) (w_pad w) b (h_ign w) (h_emph w) (h_sel w) (h_parsed w) (w_fmts w) (t_ign w) b
           (if Bool.eqb (t_dec w) b then w_items w else set_decode_fields b (w_items w)) (w_timer w))
  | Press path => (* mainwindow.cpp:273-308 [on_treeView_itemPressed] *)
    match item_at (w_items w) path with
    | None => Ret w
    | Some i =>
      match a_src (i_attr i) with
      | None => Ret w
      | Some _ =>
        let w := mkWin (w_blocks w) (w_tags w) (w_pad w) (w_dec w) (h_ign w) (h_emph w) (press i (h_sel w)) (h_parsed w) (w_fmts w) (t_ign w) (t_dec w) (w_items w) (w_timer w) in
        let* f := rehighlight w in
        Ret (with_fmts w f)
      end
    end
  end.
Fixpoint run (e : env) (w : win) (evs : list wevent) : out win :=
  match evs with [] => Ret w | ev :: evs => let* w := step e w ev in run e w evs end.

(** ** Settings *)

(** QSettings: the value of each key of the group "settings". *)
Definition store := list (list Z * Z).
Fixpoint lookup (k : list Z) (s : store) : option Z :=
  match s with [] => None | (k', v) :: s => if list_eq_dec Z.eq_dec k k' then Some v else lookup k s end.
(** The check boxes of emv-viewer-mainwindow.ui:53-73, and what setting one does. *)
Definition check_box := (list Z * (win -> bool) * (bool -> wevent))%type.
Definition boxes : list check_box :=
  [(lit "tagsCheckBox", w_tags, SetTags); (lit "paddingCheckBox", w_pad, SetPadding); (lit "decodeCheckBox", w_dec, SetDecode)].
(** mainwindow.cpp:117-133 [saveSettings]: the file is cleared first; checkState is Qt::Checked, 2. *)
Definition save_settings (w : win) : store :=
  flat_map (fun b : check_box => if snd (fst b) w then [(fst (fst b), 2)] else []) boxes.
(** mainwindow.cpp:88-104 [loadSettings]: every value but Qt::Unchecked, 0, checks the box. *)
Definition load_settings (s : store) : list wevent :=
  flat_map (fun b : check_box => match lookup (fst (fst b)) s with None => [] | Some v => [snd b (negb (v =? 0))] end) boxes.
(** emv-viewer.cpp:79-96 and mainwindow.cpp:72-78; the options are given as the blocks setPlainText makes of them, None if
    the option is absent or empty. *)
Definition override_events (ber tlv : option (list (list Z))) : list wevent :=
  match tlv with
  | Some t => [SetText t; SetDecode true]
  | None => match ber with Some t => [SetText t; SetDecode false] | None => [] end
  end.
(** mainwindow.cpp:36-82: the window when emv-viewer has started. *)
Definition start (e : env) (s : store) (ber tlv : option (list (list Z))) : out win :=
  run e win0 (load_settings s ++ override_events ber tlv).
