(** The functions that create applications, keep them as candidates and select one of them, over the heap of field
    nodes (HoldModel.v): emv_app.c:38-144 and 267-282, src/emv_tal.c:51-540 and src/emv.c:334-488.  What they compute
    is taken from [AppModel], [TalModel] and [EmvModel]; here the fields of an application, and those of the FCI of the
    directory, are nodes that are allocated and freed where the C code does so.  The list of applications is a sequence
    (OwnModel.v has its nodes).  The list of supported AIDs is only read, and kept as values. *)
From Verif Require Import Base BerModel TlvListModel TlvModel DolModel TtlModel FieldsModel AppModel TalModel EmvModel HoldModel.

(** emv_app.h:38-68: [tlv_list], [aid], and what is not a pointer. *)
Record happ := mkHA { ha_list : tlist; ha_aid : nat; ha_name : list Z; ha_prio : Z; ha_conf : bool }.
(** emv_app.c:267-282, emv_app_free, as far as the fields go. *)
Definition free_f (h : heap) (l : tlist) : out heap := let* (h, _) := list_clear (fuel_for h) h l in Ret h.

Section Cand.
Context {T : Type} (x : transport T) (junk : list Z).

(** emv_app.c:65-80 and 122-137, with label [error]. *)
Definition app_build_f (pse : option tlist) (aid_tag : Z) (h : heap) (tl : tlist) : out (option happ * heap) :=
  let* p := list_find (fuel_for h) h tl aid_tag in
  match p with
  | None => let* h := free_f h tl in Ret (None, h)
  | Some p =>
    let* n := load h p in
    let* ps := match pse with Some l => let* v := seen h l in Ret (Some v) | None => Ret None end in
    let* fs := seen h tl in
    let* (r, name) := extract_display_name junk ps (n_field n) fs (repeat 0 33) in
    if negb (r =? 0) then let* h := free_f h tl in Ret (None, h)
    else let* (prio, conf) := extract_priority fs in Ret (Some (mkHA tl p name prio conf), h)
  end.
(** emv_app.c:38-86, emv_app_create_from_pse. *)
Definition create_from_pse_f (pse : tlist) (entry : list Z) (h : heap) : out (option happ * heap) :=
  let* (r, h, tl) := tlv_parse_h entry h tlist_init in
  if negb (r =? 0) then let* h := free_f h tl in Ret (None, h) else app_build_f (Some pse) 0x4F h tl.
(** emv_app.c:88-144, emv_app_create_from_fci. *)
Definition create_from_fci_f (fci : list Z) (h : heap) : out (option happ * heap) :=
  let* (r, t) := ber_decode fci in
  if negb (u64 r =? Zlen fci) then let* h := free_f h tlist_init in Ret (None, h)
  else match t with
  | None => UB
  | Some t =>
    if negb (b_tag t =? 0x6F) then let* h := free_f h tlist_init in Ret (None, h)
    else
    let* (r, h, tl) := tlv_parse_h (b_val t) h tlist_init in
    if negb (r =? 0) then let* h := free_f h tl in Ret (None, h) else app_build_f None 0x84 h tl
  end.

(** emv_app.c:346-366, emv_app_list_clear: each application is freed. *)
Fixpoint free_all_f (h : heap) (apps : list happ) : out heap :=
  match apps with [] => Ret h | a :: t => let* h := free_f h (ha_list a) in free_all_f h t end.

(** emv_tal.c:259-292. *)
Fixpoint aef_loop_c (fuel : nat) (itr : list Z) (pse : tlist) (supported : list field) (h : heap) (apps : list happ)
  : out (heap * list happ) :=
  match fuel with
  | O => NoFuel
  | S fuel =>
    let* (r, t, itr) := ber_itr_next itr in
    if r <=? 0 then Ret (h, apps)
    else match t with
    | None => UB
    | Some t =>
      if negb (b_tag t =? 0x61) then aef_loop_c fuel itr pse supported h apps
      else
      let* (a, h) := create_from_pse_f pse (b_val t) h in
      match a with
      | None => aef_loop_c fuel itr pse supported h apps
      | Some a =>
        let* n := load h (ha_aid a) in
        let* ok := app_is_supported (n_field n) supported in
        if ok : bool then aef_loop_c fuel itr pse supported h (apps ++ [a])
        else let* h := free_f h (ha_list a) in aef_loop_c fuel itr pse supported h apps
      end
    end
  end.
(** emv_tal.c:218-295, emv_tal_parse_aef_record. *)
Definition parse_aef_record_c (pse : tlist) (rec : list Z) (supported : list field) (h : heap) (apps : list happ)
  : out (Z * heap * list happ) :=
  let* (r, t) := ber_decode rec in
  if r <=? 0 then Ret (TAL_PSE_AEF_PARSE_FAILED, h, apps)
  else match t with
  | None => UB
  | Some t =>
    if negb (b_tag t =? 0x70) then Ret (TAL_PSE_AEF_INVALID, h, apps)
    else let* (h, apps) := aef_loop_c (S (length (b_val t))) (ber_itr_init (b_val t)) pse supported h apps in
      Ret (0, h, apps)
  end.
(** emv_tal.c:155-205. *)
Fixpoint pse_loop_c (fuel : nat) (s : T) (sfi rec : Z) (pse : tlist) (supported : list field) (h : heap) (apps : list happ)
  : out (Z * heap * list happ * T) :=
  match fuel with
  | O => NoFuel
  | S fuel =>
    let* a := x_read x s sfi rec in
    if negb (n_ret a =? 0) then Ret (TAL_TTL_FAILURE, h, apps, n_st a)
    else if n_sw a =? 0x6A83 then Ret (0, h, apps, n_st a)
    else if negb (n_sw a =? 0x9000) then pse_loop_c fuel (n_st a) sfi (u8 (rec + 1)) pse supported h apps
    else
      let* (r, h, apps) := parse_aef_record_c pse (n_data a) supported h apps in
      if r <? 0 then Ret (r, h, apps, n_st a)
      else pse_loop_c fuel (n_st a) sfi (u8 (rec + 1)) pse supported h apps
  end.
(** emv_tal.c:51-216, emv_tal_read_pse.  The value of the SFI is read in each round; here once, as nothing changes it. *)
Definition read_pse_c (fuel : nat) (s : T) (supported : list field) (h : heap) (apps : list happ)
  : out (Z * heap * list happ * T) :=
  let* a := x_select x s EMV_PSE in
  let s := n_st a in
  if negb (n_ret a =? 0) then Ret (TAL_TTL_FAILURE, h, apps, s)
  else if n_sw a =? 0x6A81 then Ret (TAL_CARD_BLOCKED, h, apps, s)
  else if n_sw a =? 0x6A82 then Ret (TAL_PSE_NOT_FOUND, h, apps, s)
  else if n_sw a =? 0x6283 then Ret (TAL_PSE_BLOCKED, h, apps, s)
  else if negb (n_sw a =? 0x9000) then Ret (TAL_PSE_SELECT_FAILED, h, apps, s)
  else
  let* (r, h, pse) := tlv_parse_h (n_data a) h tlist_init in
  let* (r, h, apps, s) :=
    if r <? 0 then Ret (TAL_PSE_FCI_PARSE_FAILED, h, apps, s)
    else
    let* p := list_find (fuel_for h) h pse 0x88 in
    let* f := deref h p in
    match f with
    | None => Ret (TAL_PSE_SFI_NOT_FOUND, h, apps, s)
    | Some f =>
      if negb (f_len f =? 1) then Ret (TAL_PSE_SFI_INVALID, h, apps, s)
      else let* sfi := rd (f_val f) 0 in pse_loop_c fuel s sfi 1 pse supported h apps
    end in
  let* h := free_f h pse in                                                   (* 210-215: label exit *)
  if r =? 0 then Ret (r, h, apps, s)
  else let* h := free_all_f h apps in Ret (r, h, [], s).

(** emv_tal.c:317-449. *)
Fixpoint find_loop_c (fuel : nat) (s : T) (aids : list field) (exact : bool) (h : heap) (apps : list happ)
  : out (Z * heap * list happ * T) :=
  match fuel with
  | O => NoFuel
  | S fuel =>
    match aids with
    | [] => Ret (0, h, apps, s)
    | aid :: rest =>
      let* name := sub (f_val aid) 0 (Z.to_nat (f_len aid)) in
      let* a := if exact then x_select x s name else x_next x s name in
      let s := n_st a in
      if negb (n_ret a =? 0) then Ret (TAL_TTL_FAILURE, h, apps, s)
      else if (exact && (n_sw a =? 0x6A81))%bool then Ret (TAL_CARD_BLOCKED, h, apps, s)
      else if (negb (n_sw a =? 0x9000) && negb (n_sw a =? 0x6283))%bool then find_loop_c fuel s rest true h apps
      else
        let* (r, h) := create_from_fci_f (n_data a) h in
        match r with
        | None => find_loop_c fuel s rest true h apps
        | Some app_ =>
          let* n := load h (ha_aid app_) in
          if f_len aid =? f_len (n_field n) then                              (* 389-408 *)
            if n_sw a =? 0x9000 then find_loop_c fuel s rest true h (apps ++ [app_])
            else let* h := free_f h (ha_list app_) in find_loop_c fuel s rest true h apps
          else if f_flags aid =? 1 then                                       (* 415-432 *)
            if n_sw a =? 0x9000 then find_loop_c fuel s aids false h (apps ++ [app_])
            else let* h := free_f h (ha_list app_) in find_loop_c fuel s aids false h apps
          else let* h := free_f h (ha_list app_) in find_loop_c fuel s rest true h apps
        end
    end
  end.

(** emv_tal.c:454-540, emv_tal_select_app. *)
Definition select_app_c (s : T) (aid : list Z) (h : heap) : out (Z * option happ * heap * T) :=
  if ((Zlen aid <? 5) || (16 <? Zlen aid))%bool then Ret (TAL_INVALID_PARAMETER, None, h, s)
  else
  let* a := x_select x s aid in
  let s := n_st a in
  if negb (n_ret a =? 0) then Ret (TAL_TTL_FAILURE, None, h, s)
  else if negb (n_sw a =? 0x9000) then
    (if n_sw a =? 0x6A81 then Ret (TAL_CARD_BLOCKED, None, h, s)
     else if n_sw a =? 0x6A82 then Ret (TAL_APP_NOT_FOUND, None, h, s)
     else if n_sw a =? 0x6283 then Ret (TAL_APP_BLOCKED, None, h, s)
     else Ret (TAL_APP_SELECTION_FAILED, None, h, s))
  else
  let* (r, h) := create_from_fci_f (n_data a) h in
  match r with
  | None => Ret (TAL_APP_FCI_PARSE_FAILED, None, h, s)
  | Some app_ =>
    let* n := load h (ha_aid app_) in
    let* same := if negb (f_len (n_field n) =? Zlen aid) then Ret false
                 else mem_equal (f_val (n_field n)) aid (length aid) in
    if negb same then let* h := free_f h (ha_list app_) in Ret (TAL_APP_SELECTION_FAILED, None, h, s)
    else Ret (0, Some app_, h, s)
  end.

(** emv_app.c:500-544, emv_app_list_sort_priority, on sequences (C36). *)
Fixpoint insert_c (a : happ) (l : list happ) : list happ :=
  match l with
  | [] => [a]
  | d :: r => if ha_prio d =? 0 then a :: d :: r
              else if (negb (ha_prio a =? 0) && (ha_prio a <? ha_prio d))%bool then a :: d :: r
              else d :: insert_c a r
  end.
Definition sort_c (l : list happ) : list happ := fold_left (fun d a => insert_c a d) l [].
(** emv.c:334-396, emv_build_candidate_list. *)
Definition build_candidate_list_c (fuel : nat) (s : T) (aids : list field) (h : heap) (apps : list happ)
  : out (Z * heap * list happ * T) :=
  let* (r, h, apps, s) := read_pse_c fuel s aids h apps in
  if r <? 0 then Ret (if r =? TAL_CARD_BLOCKED then CARD_BLOCKED else CARD_ERROR, h, apps, s)
  else
  let* (r, h, apps, s) := match apps with
    | [] => find_loop_c fuel s aids true h apps
    | _ :: _ => Ret (0, h, apps, s) end in
  if negb (r =? 0) then Ret (if r =? TAL_CARD_BLOCKED then CARD_BLOCKED else CARD_ERROR, h, apps, s)
  else match apps with
  | [] => Ret (NOT_ACCEPTED, h, apps, s)
  | _ :: _ => Ret (0, h, sort_c apps, s)
  end.

Definition try_again_c (apps : list happ) : Z := match apps with [] => NOT_ACCEPTED | _ :: _ => TRY_AGAIN end.
(** emv.c:398-488, emv_select_application. *)
Definition select_application_c (s : T) (c : hctx) (h : heap) (apps : list happ) (index : nat)
  : out (Z * hctx * heap * list happ * T) :=
  let with_app a := mkHC (c_config c) (c_params c) a (c_icc c) (c_term c) in
  let* h := match c_app c with Some (tl, _) => free_f h tl | None => Ret h end in (* 416-426 *)
  match nth_error apps index with
  | None => Ret (EMV_INVALID_PARAMETER, with_app None, h, apps, s)
  | Some cur =>
    let apps := firstn index apps ++ skipn (S index) apps in
    let* n := load h (ha_aid cur) in
    if 16 <? f_len (n_field n) then
      let* h := free_f h (ha_list cur) in Ret (try_again_c apps, with_app None, h, apps, s)
    else
    let* aid := sub (f_val (n_field n)) 0 (Z.to_nat (f_len (n_field n))) in
    let* h := free_f h (ha_list cur) in
    let* (r, sel, h, s) := select_app_c s aid h in
    if r =? 0 then
      Ret (0, with_app (match sel with Some a => Some (ha_list a, ha_aid a) | None => None end), h, apps, s)
    else if r <? 0 then
      Ret (if r =? TAL_CARD_BLOCKED then CARD_BLOCKED else CARD_ERROR, with_app None, h, apps, s)
    else Ret (try_again_c apps, with_app None, h, apps, s)
  end.

(** What an application may do with a context and a list of candidates: over sequences... *)
Inductive deed := DBuild | DSelect (index : nat) | DJob (j : job) | DClearList.
Definition do_ (buf : list Z) (fuel : nat) (o : deed) (s : T) (c : ctx) (apps : list emvapp) : out (Z * ctx * list emvapp * T) :=
  match o with
  | DBuild => let* (r, apps, s) := build_candidate_list x junk fuel s c apps in Ret (r, c, apps, s)
  | DSelect i => let* (r, apps, c, s) := select_application x junk s c apps i in Ret (r, c, apps, s)
  | DJob j => let* (r, c, s) := work x buf fuel j s c in Ret (r, c, apps, s)
  | DClearList => Ret (0, c, [], s)
  end.
Fixpoint deeds (buf : list Z) (fuel : nat) (os : list deed) (s : T) (c : ctx) (apps : list emvapp) : out (list Z * ctx * list emvapp * T) :=
  match os with
  | [] => Ret ([], c, apps, s)
  | o :: os =>
    let* (r, c, apps, s) := do_ buf fuel o s c apps in
    let* (rs, c, apps, s) := deeds buf fuel os s c apps in Ret (r :: rs, c, apps, s)
  end.
(** ... and over field nodes; [aids] is what the list of supported AIDs holds. *)
Definition do_c (buf : list Z) (fuel : nat) (aids : list field) (o : deed) (s : T) (c : hctx) (h : heap) (apps : list happ)
  : out (Z * hctx * heap * list happ * T) :=
  match o with
  | DBuild => let* (r, h, apps, s) := build_candidate_list_c fuel s aids h apps in Ret (r, c, h, apps, s)
  | DSelect i => select_application_c s c h apps i
  | DJob j => let* (r, c, h, s) := work_h x buf fuel j s c h in Ret (r, c, h, apps, s)
  | DClearList => let* h := free_all_f h apps in Ret (0, c, h, [], s)
  end.
Fixpoint deeds_c (buf : list Z) (fuel : nat) (aids : list field) (os : list deed) (s : T) (c : hctx) (h : heap) (apps : list happ)
  : out (list Z * hctx * heap * list happ * T) :=
  match os with
  | [] => Ret ([], c, h, apps, s)
  | o :: os =>
    let* (r, c, h, apps, s) := do_c buf fuel aids o s c h apps in
    let* (rs, c, h, apps, s) := deeds_c buf fuel aids os s c h apps in Ret (r :: rs, c, h, apps, s)
  end.
End Cand.
