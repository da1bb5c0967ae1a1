(** The functions that fill, move and release the lists of fields of a context, over
    the heap of field nodes: src/emv_tlv.c:240-272, src/emv_tal.c:542-944 and
    src/emv.c:65-92, 490-806.  What they compute is taken from [TlvModel], [TalModel]
    and [EmvModel], which keep lists as sequences; here every field is a node that is
    allocated, linked and freed where the C code does so, and [selected_app->aid] and
    the output pointers are addresses.  Reading or freeing a node that is not
    allocated is [UB].  malloc never fails and addresses are not used again. *)
From Verif Require Import Base BerModel TlvListModel TlvModel DolModel TtlModel FieldsModel AppModel TalModel EmvModel.

(** emv_tlv.c:240-272, emv_tlv_parse. *)
Fixpoint parse_h (fuel : nat) (itr : list Z) (h : heap) (l : tlist) : out (Z * heap * tlist) :=
  match fuel with
  | O => NoFuel
  | S fuel' =>
    let* (r, t, itr') := ber_itr_next itr in
    if r <=? 0 then Ret (if r <? 0 then 1 else 0, h, l)
    else
      match t with
      | None => UB
      | Some t =>
        if ber_is_constructed t then
          let* (e, h, l) := parse_h fuel' (b_val t) h l in
          if e =? 0 then parse_h fuel' itr' h l else Ret (e, h, l)
        else
          let* (e, h, l) := list_push h l (mkField (b_tag t) (b_len t) (b_val t) 0) in
          if negb (e =? 0) then Ret (-2, h, l) else parse_h fuel' itr' h l
      end
  end.
Definition tlv_parse_h (buf : list Z) (h : heap) (l : tlist) : out (Z * heap * tlist) :=
  parse_h (S (length buf)) (ber_itr_init buf) h l.

(** A field that a pointer, if not NULL, points to. *)
Definition deref (h : heap) (p : option nat) : out (option field) :=
  match p with Some a => let* n := load h a in Ret (Some (n_field n)) | None => Ret None end.

Section Hold.
Context {T : Type} (x : transport T).

(** emv_tal.c:737-739: label [exit] of emv_tal_get_processing_options. *)
Definition gpo_exit (r : Z) (h : heap) (l g : tlist) (aip afl : option nat) (s : T)
  : out (Z * heap * tlist * option nat * option nat * T) :=
  let* (h, _) := list_clear (fuel_for h) h g in Ret (r, h, l, aip, afl, s).
(** emv_tal.c:542-741, emv_tal_get_processing_options; [l] is [list]. *)
Definition get_processing_options_h (s : T) (data : option (list Z)) (h : heap) (l : tlist)
  : out (Z * heap * tlist * option nat * option nat * T) :=
  if match data with Some d => ((Zlen d <? 2) || (255 <? Zlen d))%bool | None => false end
  then Ret (TAL_INVALID_PARAMETER, h, l, None, None, s)
  else
  let* a := x_gpo x s data in
  let s := n_st a in
  if negb (n_ret a =? 0) then Ret (TAL_TTL_FAILURE, h, l, None, None, s)
  else if negb (n_sw a =? 0x9000) then
    Ret (if n_sw a =? 0x6985 then TAL_GPO_CONDITIONS_NOT_SATISFIED else TAL_GPO_FAILED, h, l, None, None, s)
  else
  let* (r, t) := ber_decode (n_data a) in
  if r <=? 0 then Ret (TAL_GPO_PARSE_FAILED, h, l, None, None, s)
  else match t with
  | None => UB
  | Some t =>
    if ((b_tag t =? 0x80) && ((b_len t <? 6) || negb (Z.land (u32 (b_len t - 2)) 3 =? 0)))%bool
    then Ret (TAL_GPO_PARSE_FAILED, h, l, None, None, s)                      (* 632-638: returns at once *)
    else
    let* (e, h, g) :=                                                         (* 624-694 *)
      if b_tag t =? 0x80 then
        let* v1 := sub (b_val t) 0 2 in
        let* v2 := sub (b_val t) 2 (Z.to_nat (b_len t - 2)) in
        let* (e, h, g) := list_push h tlist_init (mkField 0x82 2 v1 0) in
        if negb (e =? 0) then Ret (TAL_INTERNAL, h, g)
        else
        let* (e, h, g) := list_push h g (mkField 0x94 (b_len t - 2) v2 0) in
        Ret (if negb (e =? 0) then TAL_INTERNAL else 0, h, g)
      else if b_tag t =? 0x77 then
        let* (r, h, g) := tlv_parse_h (b_val t) h tlist_init in
        Ret (if r <? 0 then TAL_INTERNAL else if 0 <? r then TAL_GPO_PARSE_FAILED else 0, h, g)
      else Ret (0, h, tlist_init) in
    if negb (e =? 0) then gpo_exit e h l g None None s
    else
    let* aip := list_find (fuel_for h) h g 0x82 in                            (* 697-708 *)
    match aip with
    | None => gpo_exit TAL_GPO_FIELD_NOT_FOUND h l g None None s
    | Some _ =>
      let* afl := list_find (fuel_for h) h g 0x94 in                          (* 711-722 *)
      match afl with
      | None => gpo_exit TAL_GPO_FIELD_NOT_FOUND h l g aip None s
      | Some _ =>
        let* (r, h, l, g) := list_append h l g in
        gpo_exit (if negb (r =? 0) then TAL_INTERNAL else 0) h l g aip afl s
      end
    end
  end.

(** emv_tal.c:795-869. *)
Definition sfi_record_h (sfi : Z) (rec : list Z) (h : heap) (l : tlist) : out (Z * bool * heap * tlist) :=
  let* b0 := rd rec 0 in
  let low := ((1 <=? sfi) && (sfi <=? 10))%bool in
  if negb (b0 =? 0x70) then Ret (if low then (TAL_READ_RECORD_INVALID, false, h, l) else (0, true, h, l))
  else
  let* bad :=
    if low then
      let* (r, t) := ber_decode rec in
      if r <=? 0 then Ret true
      else match t with
      | None => UB
      | Some t => Ret (negb (b_tag t =? 0x70) || (u32 (b_len t + 3) <? Zlen rec))%bool
      end
    else Ret false in
  if bad : bool then Ret (TAL_READ_RECORD_INVALID, false, h, l)
  else
  let* (r, h, l) := tlv_parse_h rec h l in
  Ret (if r <? 0 then TAL_INTERNAL else if 0 <? r then TAL_READ_RECORD_PARSE_FAILED else 0, false, h, l).
(** emv_tal.c:758-869. *)
Fixpoint sfi_loop_h (fuel : nat) (s : T) (e : afl_entry) (rec : Z) (oda_invalid : bool) (h : heap) (l : tlist)
  : out (Z * heap * tlist * T) :=
  match fuel with
  | O => NoFuel
  | S fuel =>
    if a_last e <? rec then Ret (if oda_invalid then TAL_ODA_RECORD_INVALID else 0, h, l, s)
    else
    let* a := x_read x s (a_sfi e) rec in
    if negb (n_ret a =? 0) then Ret (TAL_TTL_FAILURE, h, l, n_st a)
    else if negb (n_sw a =? 0x9000) then Ret (TAL_READ_RECORD_FAILED, h, l, n_st a)
    else
    let* (r, inv, h, l) := sfi_record_h (a_sfi e) (n_data a) h l in
    if negb (r =? 0) then Ret (r, h, l, n_st a)
    else sfi_loop_h fuel (n_st a) e (u8 (rec + 1)) (oda_invalid || inv)%bool h l
  end.
(** emv_tal.c:916-943. *)
Fixpoint afl_loop_h (fuel rfuel : nat) (s : T) (itr : list Z) (oda_invalid : bool) (h : heap) (l : tlist)
  : out (Z * heap * tlist * T) :=
  match fuel with
  | O => NoFuel
  | S fuel =>
    let* (r, e, itr) := afl_itr_next itr in
    if 0 <? r then
      match e with
      | None => UB
      | Some e =>
        let* (r, h, l, s) := sfi_loop_h rfuel s e (a_first e) false h l in
        if r =? 0 then afl_loop_h fuel rfuel s itr oda_invalid h l
        else if r =? TAL_ODA_RECORD_INVALID then afl_loop_h fuel rfuel s itr true h l
        else Ret (r, h, l, s)
      end
    else if r <? 0 then Ret (TAL_AFL_INVALID, h, l, s)
    else Ret (if oda_invalid then TAL_ODA_RECORD_INVALID else 0, h, l, s)
  end.
(** emv_tal.c:881-944, emv_tal_read_afl_records. *)
Definition read_afl_records_h (rfuel : nat) (s : T) (afl : list Z) (h : heap) (l : tlist)
  : out (Z * heap * tlist * T) :=
  if (length afl =? 0)%nat then Ret (TAL_INVALID_PARAMETER, h, l, s)
  else match afl_itr_init afl with
  | (r, Some itr) => afl_loop_h (S (length afl)) rfuel s itr false h l
  | (r, None) => Ret (if r <? 0 then TAL_INTERNAL else TAL_AFL_INVALID, h, l, s)
  end.

(** emv.h:48-119, the lists of a context and those of its selected application:
    [tlv_list] and the address in [aid]. *)
Record hctx := mkHC { c_config : tlist; c_params : tlist; c_app : option (tlist * nat);
                      c_icc : tlist; c_term : tlist }.
Definition seen (h : heap) (l : tlist) : out (list field) := walk (fuel_for h) h (front l).

(** emv.c:490-709, emv_initiate_application_processing. *)
Definition initiate_h (buf : list Z) (s : T) (c : hctx) (h : heap) (pos : Z) : out (Z * hctx * heap * T) :=
  match c_app c with
  | None => Ret (EMV_INVALID_PARAMETER, c, h, s)
  | Some (tl, aidp) =>
    let* (h, icc) := list_clear (fuel_for h) h (c_icc c) in                   (* 512-513 *)
    let* (h, term) := list_clear (fuel_for h) h (c_term c) in
    let fail (term : tlist) := mkHC (c_config c) (c_params c) (Some (tl, aidp)) icc term in
    let* (r, h, term) := list_push h term (mkField 0x9F39 1 [pos] 0) in       (* 524-537 *)
    if negb (r =? 0) then Ret (EMV_INTERNAL, fail term, h, s) else
    let* n := load h aidp in                                                  (* 541-554 *)
    let aid := n_field n in
    let* v := sub (f_val aid) 0 (Z.to_nat (f_len aid)) in
    let* (r, h, term) := list_push h term (mkField 0x9F06 (f_len aid) v 0) in
    if negb (r =? 0) then Ret (EMV_INTERNAL, fail term, h, s) else
    let* (r, h, term) := list_push h term (mkField 0x9B 2 [0;0] 0) in         (* 558-571 *)
    if negb (r =? 0) then Ret (EMV_INTERNAL, fail term, h, s) else
    let* (r, h, term) := list_push h term (mkField 0x95 5 [0;0;0;0;0] 0) in   (* 575-588 *)
    if negb (r =? 0) then Ret (EMV_INTERNAL, fail term, h, s) else
    let* ps := seen h (c_params c) in                                         (* 591-593 *)
    let* cs := seen h (c_config c) in
    let* ts := seen h term in
    let* p := list_find (fuel_for h) h tl 0x9F38 in                           (* 597 *)
    let* pdol := deref h p in
    let* d := gpo_data buf [ps; cs; ts] pdol in
    match d with
    | inr r => Ret (r, fail term, h, s)
    | inl d =>
      let* (r, h, g, _, _, s) := get_processing_options_h s d h tlist_init in
      if r <? 0 then
        let* (h, _) := list_clear (fuel_for h) h g in
        Ret (if ((r =? TAL_INTERNAL) || (r =? TAL_INVALID_PARAMETER))%bool then EMV_INTERNAL else CARD_ERROR, fail term, h, s)
      else if 0 <? r then
        let* (h, _) := list_clear (fuel_for h) h g in
        Ret (if r =? TAL_GPO_CONDITIONS_NOT_SATISFIED then GPO_NOT_ACCEPTED else CARD_ERROR, fail term, h, s)
      else
        let done (icc : tlist) := mkHC (c_config c) (c_params c) (Some (tlist_init, aidp)) icc term in
        let* (r, h, icc, g) := list_append h tl g in                          (* 685-697: icc = tlv_list *)
        if negb (r =? 0) then let* (h, _) := list_clear (fuel_for h) h g in Ret (EMV_INTERNAL, done icc, h, s)
        else Ret (0, done icc, h, s)
    end
  end.

(** emv.c:711-806, emv_read_application_data. *)
Definition read_application_data_h (rfuel : nat) (s : T) (c : hctx) (h : heap) : out (Z * hctx * heap * T) :=
  let* p := list_find (fuel_for h) h (c_icc c) 0x94 in
  let* afl := deref h p in
  match afl with
  | None => Ret (CARD_ERROR, c, h, s)
  | Some afl =>
    let* v := sub (f_val afl) 0 (Z.to_nat (f_len afl)) in
    let* (r, h, rec, s) := read_afl_records_h rfuel s v h tlist_init in
    let exit (r : Z) (c : hctx) (h : heap) (rec : tlist) :=                   (* 803-805 *)
      let* (h, _) := list_clear (fuel_for h) h rec in Ret (r, c, h, s) in
    if r <? 0 then
      exit (if ((r =? TAL_INTERNAL) || (r =? TAL_INVALID_PARAMETER))%bool then EMV_INTERNAL else CARD_ERROR) c h rec
    else if (negb (r =? 0) && negb (r =? TAL_ODA_RECORD_INVALID))%bool then exit CARD_ERROR c h rec
    else
    let* dup := list_has_duplicate (fuel_for h) h rec in
    if dup : bool then exit CARD_ERROR c h rec
    else
    let* rs := seen h rec in
    let found tag := existsb (fun f => f_tag f =? tag) rs in
    if (negb (found 0x5F24) || negb (found 0x5A) || negb (found 0x8C) || negb (found 0x8D))%bool
    then exit CARD_ERROR c h rec
    else
    let* (r, h, icc, rec) := list_append h (c_icc c) rec in
    exit (if negb (r =? 0) then TAL_INTERNAL else 0)
      (mkHC (c_config c) (c_params c) (c_app c) icc (c_term c)) h rec
  end.

(** emv.c:65-78, emv_ctx_reset; emv_app_free (emv_app.c:267-282) clears the list of
    the application. *)
Definition reset_h (c : hctx) (h : heap) : out (Z * hctx * heap) :=
  let* (h, params) := list_clear (fuel_for h) h (c_params c) in
  let* (h, icc) := list_clear (fuel_for h) h (c_icc c) in
  let* (h, term) := list_clear (fuel_for h) h (c_term c) in
  let* h := match c_app c with
    | Some (tl, _) => let* (h, _) := list_clear (fuel_for h) h tl in Ret h
    | None => Ret h end in
  Ret (0, mkHC (c_config c) params None icc term, h).

(** emv.c:80-92, emv_ctx_clear; [aids] is [supported_aids]. *)
Definition clear_h (c : hctx) (aids : tlist) (h : heap) : out (Z * hctx * tlist * heap) :=
  let* (h, config) := list_clear (fuel_for h) h (c_config c) in
  let* (h, aids) := list_clear (fuel_for h) h aids in
  let* (_, c, h) := reset_h (mkHC config (c_params c) (c_app c) (c_icc c) (c_term c)) h in
  Ret (0, c, aids, h).

(** What an application may do with a context in which an application is selected,
    over sequences (as in [EmvModel])... *)
Inductive job := Initiate (pos : Z) | ReadData | ResetCtx.
Definition work (buf : list Z) (rfuel : nat) (o : job) (s : T) (c : ctx) : out (Z * ctx * T) :=
  match o with
  | Initiate pos => initiate x buf s c pos
  | ReadData => read_application_data x rfuel s c
  | ResetCtx => let (r, c) := ctx_reset c in Ret (r, c, s)
  end.
Fixpoint works (buf : list Z) (rfuel : nat) (os : list job) (s : T) (c : ctx) : out (list Z * ctx * T) :=
  match os with
  | [] => Ret ([], c, s)
  | o :: os =>
    let* (r, c, s) := work buf rfuel o s c in
    let* (rs, c, s) := works buf rfuel os s c in Ret (r :: rs, c, s)
  end.
(** ... and over nodes. *)
Definition work_h (buf : list Z) (rfuel : nat) (o : job) (s : T) (c : hctx) (h : heap) : out (Z * hctx * heap * T) :=
  match o with
  | Initiate pos => initiate_h buf s c h pos
  | ReadData => read_application_data_h rfuel s c h
  | ResetCtx => let* (r, c, h) := reset_h c h in Ret (r, c, h, s)
  end.
Fixpoint works_h (buf : list Z) (rfuel : nat) (os : list job) (s : T) (c : hctx) (h : heap)
  : out (list Z * hctx * heap * T) :=
  match os with
  | [] => Ret ([], c, h, s)
  | o :: os =>
    let* (r, c, h, s) := work_h buf rfuel o s c h in
    let* (rs, c, h, s) := works_h buf rfuel os s c h in Ret (r :: rs, c, h, s)
  end.
End Hold.
