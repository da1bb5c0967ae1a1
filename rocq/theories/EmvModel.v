(** Model of src/emv.c except emv_atr_parse (AtrModel.v): the functions that drive a
    transaction.  [ctx] and [app_list] are not NULL.  TLV and application lists are
    sequences; appending to them succeeds. *)
From Verif Require Import Base BerModel TlvListModel TlvModel DolModel TtlModel FieldsModel AppModel TalModel.

(** Who owns the field that [selected_app->aid] points to: the application's own
    list, the context's [icc] list, or nobody (it has been released). *)
Inductive aid_at := InApp | InIcc | Gone.
(** src/emv.h:48-119, struct emv_ctx_t.  [k_ttl]: whether [ttl] is set. *)
Record ctx := mkCtx {
  k_ttl : bool; k_config : list field; k_aids : list field; k_params : list field;
  k_app : option (emvapp * aid_at); k_icc : list field; k_term : list field }.

(** emv_tlv_list_clear(&ctx->icc): releases the fields, also one that the selected
    application points to. *)
Definition after_icc_clear (a : option (emvapp * aid_at)) : option (emvapp * aid_at) :=
  match a with Some (a, InIcc) => Some (a, Gone) | _ => a end.

(** emv.c:53-63, emv_ctx_init. *)
Definition ctx_init : ctx := mkCtx true [] [] [] None [] [].
(** emv.c:65-78, emv_ctx_reset.  (emv_app_free does not look at [aid].) *)
Definition ctx_reset (c : ctx) : Z * ctx :=
  (0, mkCtx (k_ttl c) (k_config c) (k_aids c) [] None [] []).
(** emv.c:80-92, emv_ctx_clear. *)
Definition ctx_clear (c : ctx) : Z * ctx :=
  let c := mkCtx false [] [] (k_params c) (k_app c) (k_icc c) (k_term c) in
  let (_, c) := ctx_reset c in (0, c).

(** emv.h:133-151: errors and outcomes. *)
Definition EMV_INTERNAL := -1. Definition EMV_INVALID_PARAMETER := -2.
Definition CARD_ERROR := 1. Definition CARD_BLOCKED := 2. Definition NOT_ACCEPTED := 3.
Definition TRY_AGAIN := 4. Definition GPO_NOT_ACCEPTED := 5.

(** src/emv_tlv.c:196-211, emv_tlv_list_has_duplicate on sequences (C09). *)
Fixpoint has_duplicate (l : list field) : bool :=
  match l with [] => false | f :: r => (existsb (fun g => f_tag g =? f_tag f) r || has_duplicate r)%bool end.

Section Emv.
Context {T : Type} (x : transport T) (junk : list Z).

(** emv.c:334-396, emv_build_candidate_list; [apps] is the list before. *)
Definition build_candidate_list (fuel : nat) (s : T) (c : ctx) (apps : list emvapp) : out (Z * list emvapp * T) :=
  let* (r, apps, s) := read_pse x junk fuel s (k_aids c) apps in
  if r <? 0 then Ret (if r =? TAL_CARD_BLOCKED then CARD_BLOCKED else CARD_ERROR, apps, s)
  else
  let* (r, apps, s) := match apps with                                        (* 366-380 *)
    | [] => find_supported_apps x junk fuel s (k_aids c) apps
    | _ :: _ => Ret (0, apps, s) end in
  if negb (r =? 0) then Ret (if r =? TAL_CARD_BLOCKED then CARD_BLOCKED else CARD_ERROR, apps, s)
  else match apps with                                                        (* 384-387 *)
  | [] => Ret (NOT_ACCEPTED, apps, s)
  | _ :: _ => Ret (0, sort_priority apps, s)
  end.

(** emv_app_list_remove_index on sequences (C37). *)
Definition remove_nth (index : nat) (l : list emvapp) : option (emvapp * list emvapp) :=
  match nth_error l index with
  | Some a => Some (a, firstn index l ++ skipn (S index) l)
  | None => None
  end.

(** emv.c:467-477: label [try_again]. *)
Definition try_again (apps : list emvapp) : Z := match apps with [] => NOT_ACCEPTED | _ :: _ => TRY_AGAIN end.
(** emv.c:398-488, emv_select_application. *)
Definition select_application (s : T) (c : ctx) (apps : list emvapp) (index : nat)
  : out (Z * list emvapp * ctx * T) :=
  let with_app a := mkCtx (k_ttl c) (k_config c) (k_aids c) (k_params c) a (k_icc c) (k_term c) in
  match remove_nth index apps with                                            (* 416-433 *)
  | None => Ret (EMV_INVALID_PARAMETER, apps, with_app None, s)
  | Some (cur, apps) =>
    if 16 <? f_len (a_aid cur) then Ret (try_again apps, apps, with_app None, s)
    else
    let* aid := sub (f_val (a_aid cur)) 0 (Z.to_nat (f_len (a_aid cur))) in   (* 438-441 *)
    let* (r, sel, s) := select_app x junk s aid in
    if r =? 0 then
      Ret (0, apps, with_app (match sel with Some a => Some (a, InApp) | None => None end), s)
    else if r <? 0 then
      Ret (if r =? TAL_CARD_BLOCKED then CARD_BLOCKED else CARD_ERROR, apps, with_app None, s)
    else Ret (try_again apps, apps, with_app None, s)
  end.

(** emv.c:594-647: the data of GET PROCESSING OPTIONS, or the return code.  [buf]
    is the uninitialised [gpo_data_buf] (255 octets). *)
Definition gpo_data (buf : list Z) (sources : list (list field)) (pdol : option field) : out (option (list Z) + Z) :=
  match pdol with
  | None => Ret (inl None)
  | Some f =>
    let* v := sub (f_val f) 0 (Z.to_nat (f_len f)) in
    let* n := dol_compute_data_length v in
    if n <? 0 then Ret (inr CARD_ERROR)
    else if 255 - 3 <? n then Ret (inr CARD_ERROR)
    else
    let* buf := wr buf 0 0x83 in
    let* (buf, offset) :=
      if n <? 0x80 then let* buf := wr buf 1 n in Ret (buf, 2%nat)
      else let* buf := wr buf 1 0x81 in let* buf := wr buf 2 n in Ret (buf, 3%nat) in
    let* (r, data, len) := dol_build_data v sources (skipn offset buf) in
    if negb (r =? 0) then Ret (inr EMV_INTERNAL)
    else let* d := sub (firstn offset buf ++ data) 0 (Z.to_nat (len + Z.of_nat offset)) in Ret (inl (Some d))
  end.

(** emv.c:490-709, emv_initiate_application_processing ([pos] is a uint8_t). *)
Definition initiate (buf : list Z) (s : T) (c : ctx) (pos : Z) : out (Z * ctx * T) :=
  match k_app c with
  | None => Ret (EMV_INVALID_PARAMETER, c, s)
  | Some _ =>
    match after_icc_clear (k_app c) with                                      (* 511-513 *)
    | None => UB
    | Some (a, at_) =>
      let* aid := match at_ with Gone => UB | _ => Ret (a_aid a) end in       (* 541-547: [aid] is followed *)
      let* v := sub (f_val aid) 0 (Z.to_nat (f_len aid)) in
      let term := [mkField 0x9F39 1 [pos] 0; mkField 0x9F06 (f_len aid) v 0;
                   mkField 0x9B 2 [0;0] 0; mkField 0x95 5 [0;0;0;0;0] 0] in
      let fail := mkCtx (k_ttl c) (k_config c) (k_aids c) (k_params c) (Some (a, at_)) [] term in
      let* d := gpo_data buf [k_params c; k_config c; term] (find_tag 0x9F38 (a_tlvs a)) in
      match d with
      | inr r => Ret (r, fail, s)
      | inl d =>
        let* (r, gpo, _, _, s) := get_processing_options x s d [] in
        if r <? 0 then                                                        (* 655-668 *)
          Ret (if ((r =? TAL_INTERNAL) || (r =? TAL_INVALID_PARAMETER))%bool then EMV_INTERNAL else CARD_ERROR, fail, s)
        else if 0 <? r then                                                   (* 669-681 *)
          Ret (if r =? TAL_GPO_CONDITIONS_NOT_SATISFIED then GPO_NOT_ACCEPTED else CARD_ERROR, fail, s)
        else                                                                  (* 684-700 *)
          Ret (0, mkCtx (k_ttl c) (k_config c) (k_aids c) (k_params c)
                    (Some (mkApp (a_aid a) (a_name a) (a_prio a) (a_conf a) [],
                           match at_ with InApp => InIcc | _ => at_ end))
                    (a_tlvs a ++ gpo) term, s)
      end
    end
  end.

(** emv.c:711-806, emv_read_application_data. *)
Definition read_application_data (rfuel : nat) (s : T) (c : ctx) : out (Z * ctx * T) :=
  match find_tag 0x94 (k_icc c) with
  | None => Ret (CARD_ERROR, c, s)
  | Some afl =>
    let* v := sub (f_val afl) 0 (Z.to_nat (f_len afl)) in
    let* (r, rec, s) := read_afl_records x rfuel s v [] in
    if r <? 0 then
      Ret (if ((r =? TAL_INTERNAL) || (r =? TAL_INVALID_PARAMETER))%bool then EMV_INTERNAL else CARD_ERROR, c, s)
    else if (negb (r =? 0) && negb (r =? TAL_ODA_RECORD_INVALID))%bool then Ret (CARD_ERROR, c, s)
    else if has_duplicate rec then Ret (CARD_ERROR, c, s)                     (* 757-763 *)
    else
    let found tag := existsb (fun f => f_tag f =? tag) rec in                 (* 765-787 *)
    if (negb (found 0x5F24) || negb (found 0x5A) || negb (found 0x8C) || negb (found 0x8D))%bool
    then Ret (CARD_ERROR, c, s)
    else Ret (0, mkCtx (k_ttl c) (k_config c) (k_aids c) (k_params c) (k_app c) (k_icc c ++ rec) (k_term c), s)
  end.
End Emv.
