(** The functions that create, keep and release applications, over the heap of
    application nodes: emv_app_create_from_*, src/emv_tal.c:51-540 and
    src/emv.c:65-92, 334-488.  What the functions compute is taken from [AppModel],
    [TalModel] and [EmvModel], which keep applications as values; here every
    application is a node that is allocated, linked and freed where the C code does
    so.  Reading or freeing a node that is not allocated is [UB].  malloc never
    fails; a new node gets an address that was never used before. *)
From Verif Require Import Base BerModel TlvListModel TlvModel DolModel TtlModel FieldsModel AppModel TalModel EmvModel.

(** [malloc] and filling in of a node that is in no list. *)
Definition alloc (h : aheap) (a : emvapp) : nat * aheap := (length h, h ++ [Some (mkAN a None)]).
(** The node while it is being filled in (only its [next], NULL by memset, matters). *)
Definition unfilled : emvapp := mkApp (mkField 0 0 [] 0) [] 0 false [].

(** emv_app.c:38-86 and 88-146, emv_app_create_from_pse and emv_app_create_from_fci:
    [m] is what they compute; at label [error] the node is freed. *)
Definition create_h (m : out (option emvapp)) (h : aheap) : out (option nat * aheap) :=
  let* r := m in
  match r with
  | Some a => let (p, h) := alloc h a in Ret (Some p, h)
  | None => let (p, h) := alloc h unfilled in let* (_, h) := app_free h p in Ret (None, h)
  end.

(** emv_app.c:335-344, emv_app_list_is_empty. *)
Definition alist_is_empty (l : alist) : bool :=
  if negb (alist_valid l) then true else match al_front l with None => true | Some _ => false end.

Section Own.
Context {T : Type} (x : transport T) (junk : list Z).

(** emv_tal.c:259-292. *)
Fixpoint aef_loop_h (fuel : nat) (itr : list Z) (pse supported : list field) (h : aheap) (l : alist)
  : out (aheap * alist) :=
  match fuel with
  | O => NoFuel
  | S fuel =>
    let* (r, t, itr) := ber_itr_next itr in
    if r <=? 0 then Ret (h, l)
    else match t with
    | None => UB
    | Some t =>
      if negb (b_tag t =? 0x61) then aef_loop_h fuel itr pse supported h l
      else
      let* (p, h) := create_h (app_create_from_pse junk pse (b_val t)) h in
      match p with
      | None => aef_loop_h fuel itr pse supported h l
      | Some p =>
        let* n := aload h p in
        let* ok := app_is_supported (a_aid (an_app n)) supported in
        if ok : bool then
          let* (_, h, l) := alist_push h l p in aef_loop_h fuel itr pse supported h l
        else let* (_, h) := app_free h p in aef_loop_h fuel itr pse supported h l
      end
    end
  end.
(** emv_tal.c:218-295, emv_tal_parse_aef_record. *)
Definition parse_aef_record_h (pse : list field) (rec : list Z) (supported : list field) (h : aheap) (l : alist)
  : out (Z * aheap * alist) :=
  let* (r, t) := ber_decode rec in
  if r <=? 0 then Ret (TAL_PSE_AEF_PARSE_FAILED, h, l)
  else match t with
  | None => UB
  | Some t =>
    if negb (b_tag t =? 0x70) then Ret (TAL_PSE_AEF_INVALID, h, l)
    else let* (h, l) := aef_loop_h (S (length (b_val t))) (ber_itr_init (b_val t)) pse supported h l in
      Ret (0, h, l)
  end.

(** emv_tal.c:155-205. *)
Fixpoint pse_loop_h (fuel : nat) (s : T) (sfi rec : Z) (pse supported : list field) (h : aheap) (l : alist)
  : out (Z * aheap * alist * T) :=
  match fuel with
  | O => NoFuel
  | S fuel =>
    let* a := x_read x s sfi rec in
    if negb (n_ret a =? 0) then Ret (TAL_TTL_FAILURE, h, l, n_st a)
    else if n_sw a =? 0x6A83 then Ret (0, h, l, n_st a)
    else if negb (n_sw a =? 0x9000) then pse_loop_h fuel (n_st a) sfi (u8 (rec + 1)) pse supported h l
    else
      let* (r, h, l) := parse_aef_record_h pse (n_data a) supported h l in
      if r <? 0 then Ret (r, h, l, n_st a)
      else pse_loop_h fuel (n_st a) sfi (u8 (rec + 1)) pse supported h l
  end.
(** emv_tal.c:51-216, emv_tal_read_pse. *)
Definition read_pse_h (fuel : nat) (s : T) (supported : list field) (h : aheap) (l : alist)
  : out (Z * aheap * alist * T) :=
  let* a := x_select x s EMV_PSE in
  let s := n_st a in
  if negb (n_ret a =? 0) then Ret (TAL_TTL_FAILURE, h, l, s)
  else if n_sw a =? 0x6A81 then Ret (TAL_CARD_BLOCKED, h, l, s)
  else if n_sw a =? 0x6A82 then Ret (TAL_PSE_NOT_FOUND, h, l, s)
  else if n_sw a =? 0x6283 then Ret (TAL_PSE_BLOCKED, h, l, s)
  else if negb (n_sw a =? 0x9000) then Ret (TAL_PSE_SELECT_FAILED, h, l, s)
  else
  let* (r, pse) := tlv_parse (n_data a) [] in
  let* (r, h, l, s) :=
    if r <? 0 then Ret (TAL_PSE_FCI_PARSE_FAILED, h, l, s)
    else match find_tag 0x88 pse with
    | None => Ret (TAL_PSE_SFI_NOT_FOUND, h, l, s)
    | Some f =>
      if negb (f_len f =? 1) then Ret (TAL_PSE_SFI_INVALID, h, l, s)
      else let* sfi := rd (f_val f) 0 in pse_loop_h fuel s sfi 1 pse supported h l
    end in
  if r =? 0 then Ret (r, h, l, s)
  else let* (h, l) := alist_clear (S (length h)) h l in Ret (r, h, l, s).

(** emv_tal.c:317-449. *)
Fixpoint find_loop_h (fuel : nat) (s : T) (aids : list field) (exact : bool) (h : aheap) (l : alist)
  : out (Z * aheap * alist * T) :=
  match fuel with
  | O => NoFuel
  | S fuel =>
    match aids with
    | [] => Ret (0, h, l, s)
    | aid :: rest =>
      let* name := sub (f_val aid) 0 (Z.to_nat (f_len aid)) in
      let* a := if exact then x_select x s name else x_next x s name in
      let s := n_st a in
      if negb (n_ret a =? 0) then Ret (TAL_TTL_FAILURE, h, l, s)
      else if (exact && (n_sw a =? 0x6A81))%bool then Ret (TAL_CARD_BLOCKED, h, l, s)
      else if (negb (n_sw a =? 0x9000) && negb (n_sw a =? 0x6283))%bool then find_loop_h fuel s rest true h l
      else
        let* (p, h) := create_h (app_create_from_fci junk (n_data a)) h in
        match p with
        | None => find_loop_h fuel s rest true h l
        | Some p =>
          let* n := aload h p in
          if f_len aid =? f_len (a_aid (an_app n)) then                       (* 389-408 *)
            if n_sw a =? 0x9000 then
              let* (_, h, l) := alist_push h l p in find_loop_h fuel s rest true h l
            else let* (_, h) := app_free h p in find_loop_h fuel s rest true h l
          else if f_flags aid =? 1 then                                       (* 415-432 *)
            if n_sw a =? 0x9000 then
              let* (_, h, l) := alist_push h l p in find_loop_h fuel s aids false h l
            else let* (_, h) := app_free h p in find_loop_h fuel s aids false h l
          else let* (_, h) := app_free h p in find_loop_h fuel s rest true h l (* 434-445 *)
        end
    end
  end.
(** emv_tal.c:297-452, emv_tal_find_supported_apps. *)
Definition find_supported_apps_h (fuel : nat) (s : T) (supported : list field) (h : aheap) (l : alist)
  : out (Z * aheap * alist * T) := find_loop_h fuel s supported true h l.

(** emv_tal.c:454-540, emv_tal_select_app: [*selected_app] is None unless written. *)
Definition select_app_h (s : T) (aid : list Z) (h : aheap) : out (Z * option nat * aheap * T) :=
  if ((Zlen aid <? 5) || (16 <? Zlen aid))%bool then Ret (TAL_INVALID_PARAMETER, None, h, s)
  else
  let* a := x_select x s aid in
  let s := n_st a in
  if negb (n_ret a =? 0) then Ret (TAL_TTL_FAILURE, None, h, s)
  else if negb (n_sw a =? 0x9000) then
    (if n_sw a =? 0x6A81 then Ret (TAL_CARD_BLOCKED, None, h, s)
     else if n_sw a =? 0x6A82 then Ret (TAL_APP_NOT_FOUND, None, h, s)
     else if n_sw a =? 0x6283 then Ret (TAL_APP_BLOCKED, None, h, s)
     else Ret (TAL_APP_SELECTION_FAILED, None, h, s))
  else
  let* (p, h) := create_h (app_create_from_fci junk (n_data a)) h in
  match p with
  | None => Ret (TAL_APP_FCI_PARSE_FAILED, None, h, s)
  | Some p =>
    let* n := aload h p in
    let app_ := an_app n in
    let* same := if negb (f_len (a_aid app_) =? Zlen aid) then Ret false
                 else mem_equal (f_val (a_aid app_)) aid (length aid) in
    if negb same then let* (_, h) := app_free h p in Ret (TAL_APP_SELECTION_FAILED, None, h, s)
    else Ret (0, Some p, h, s)
  end.

(** emv.c:334-396, emv_build_candidate_list. *)
Definition build_candidate_list_h (fuel : nat) (s : T) (c : ctx) (h : aheap) (l : alist)
  : out (Z * aheap * alist * T) :=
  let* (r, h, l, s) := read_pse_h fuel s (k_aids c) h l in
  if r <? 0 then Ret (if r =? TAL_CARD_BLOCKED then CARD_BLOCKED else CARD_ERROR, h, l, s)
  else
  let* (r, h, l, s) := if alist_is_empty l then find_supported_apps_h fuel s (k_aids c) h l
                       else Ret (0, h, l, s) in
  if negb (r =? 0) then Ret (if r =? TAL_CARD_BLOCKED then CARD_BLOCKED else CARD_ERROR, h, l, s)
  else if alist_is_empty l then Ret (NOT_ACCEPTED, h, l, s)
  else
  let* (r, h, l) := alist_sort_priority (S (length h)) h l in
  Ret (if r =? 0 then 0 else EMV_INTERNAL, h, l, s).

(** emv.c:467-477: label [try_again]. *)
Definition try_again_h (l : alist) : Z := if alist_is_empty l then NOT_ACCEPTED else TRY_AGAIN.
(** emv.c:398-488, emv_select_application; [sel] is ctx->selected_app. *)
Definition select_application_h (s : T) (sel : option nat) (h : aheap) (l : alist) (index : nat)
  : out (Z * option nat * aheap * alist * T) :=
  let* (r, h) := match sel with Some p => app_free h p | None => Ret (0, h) end in (* 416-426 *)
  if negb (r =? 0) then Ret (EMV_INTERNAL, sel, h, l, s)
  else
  let* (p, h, l) := alist_remove_index (S (length h)) h l index in
  match p with
  | None => Ret (EMV_INVALID_PARAMETER, None, h, l, s)
  | Some p =>
    let* n := aload h p in
    let cur := an_app n in
    if 16 <? f_len (a_aid cur) then
      let r := try_again_h l in
      let* (_, h) := app_free h p in Ret (r, None, h, l, s)                   (* 480-484 *)
    else
    let* aid := sub (f_val (a_aid cur)) 0 (Z.to_nat (f_len (a_aid cur))) in
    let* (_, h) := app_free h p in
    let* (r, sel, h, s) := select_app_h s aid h in
    if r =? 0 then Ret (0, sel, h, l, s)
    else if r <? 0 then Ret (if r =? TAL_CARD_BLOCKED then CARD_BLOCKED else CARD_ERROR, sel, h, l, s)
    else Ret (try_again_h l, sel, h, l, s)
  end.

(** emv.c:65-78, emv_ctx_reset, as far as [selected_app] goes (the return code of
    emv_app_free is ignored). *)
Definition ctx_reset_h (sel : option nat) (h : aheap) : out (option nat * aheap) :=
  match sel with Some p => let* (_, h) := app_free h p in Ret (None, h) | None => Ret (None, h) end.

(** What an application may do with a context and a candidate list. *)
Inductive step := Build | Select (index : nat) | Reset | Clear.
(** A history of such calls, over values (as in [EmvModel])... *)
Definition act (fuel : nat) (o : step) (s : T) (c : ctx) (apps : list emvapp) : out (Z * list emvapp * ctx * T) :=
  match o with
  | Build => let* (r, apps, s) := build_candidate_list x junk fuel s c apps in Ret (r, apps, c, s)
  | Select i => select_application x junk s c apps i
  | Reset => let (r, c) := ctx_reset c in Ret (r, apps, c, s)
  | Clear => Ret (0, [], c, s)
  end.
Fixpoint history (fuel : nat) (os : list step) (s : T) (c : ctx) (apps : list emvapp)
  : out (list Z * list emvapp * ctx * T) :=
  match os with
  | [] => Ret ([], apps, c, s)
  | o :: os =>
    let* (r, apps, c, s) := act fuel o s c apps in
    let* (rs, apps, c, s) := history fuel os s c apps in Ret (r :: rs, apps, c, s)
  end.
(** ... and over nodes; of the context only the supported AIDs and [selected_app]
    matter. *)
Definition act_h (fuel : nat) (o : step) (s : T) (c : ctx) (sel : option nat) (h : aheap) (l : alist)
  : out (Z * option nat * aheap * alist * T) :=
  match o with
  | Build => let* (r, h, l, s) := build_candidate_list_h fuel s c h l in Ret (r, sel, h, l, s)
  | Select i => select_application_h s sel h l i
  | Reset => let* (sel, h) := ctx_reset_h sel h in Ret (0, sel, h, l, s)
  | Clear => let* (h, l) := alist_clear (S (length h)) h l in Ret (0, sel, h, l, s)
  end.
Fixpoint history_h (fuel : nat) (os : list step) (s : T) (c : ctx) (sel : option nat) (h : aheap) (l : alist)
  : out (list Z * option nat * aheap * alist * T) :=
  match os with
  | [] => Ret ([], sel, h, l, s)
  | o :: os =>
    let* (r, sel, h, l, s) := act_h fuel o s c sel h l in
    let* (rs, sel, h, l, s) := history_h fuel os s c sel h l in Ret (r :: rs, sel, h, l, s)
  end.
End Own.
