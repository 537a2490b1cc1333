(** * Model of the extra header routines: JSON Pointer access, merge patches, additions.

    libmseed/extraheaders.c:55-1144 and the functions of libmseed/yyjson.c and yyjson.h they
    use (JSON Pointer, yyjson.c:1852-2302; merge patch, yyjson.c:2712-2762).

    A JSON value is a tree: the linked lists of the mutable form and the arrays of the
    immutable form are lists, copies between the two forms are the identity.  Integers of both
    subtypes are one constructor, a real is its bit pattern.  Reading and writing JSON text
    are arguments ([rd] for yyjson_read_opts, [wr] for yyjson_mut_write_opts and
    yyjson_write_opts without flags; [None]: NULL returned).  Log messages, leaks and failure
    of allocations are not modelled; the record, the pointer and the structure added are never
    NULL.  A pointer is the list of its characters before the terminator. *)

From Coq Require Import String.
From Verif Require Export Base TimeModel TimeStrModel StrModel DblModel.
Open Scope Z_scope.
Open Scope list_scope.

(** yyjson_val and yyjson_mut_val, yyjson.h:4500-4530. *)
Inductive jv :=
| JNull
| JBool (b : bool)
| JInt (v : Z)
| JReal (bits : Z)
| JStr (s : list Z)
| JArr (l : list jv)
| JObj (l : list (list Z * jv)).

(** memcmp of strings of given length, yyjson.h (unsafe_yyjson_equals_strn). *)
Fixpoint same (a b : list Z) : bool :=
  match a, b with
  | [], [] => true
  | x :: a', y :: b' => (x =? y) && same a' b'
  | _, _ => false
  end.

(** ** JSON Pointer *)

(** ptr_next_token, yyjson.c:1852-1880, over a whole pointer: the tokens as written, [None] for
    a tilde that escapes nothing (the walk that reaches it fails).  47: slash, 126: tilde. *)
Fixpoint toks (s acc : list Z) : list (option (list Z)) :=
  match s with
  | [] => [Some (rev acc)]
  | c :: s' =>
    if c =? 47 then Some (rev acc) :: toks s' []
    else if c =? 126 then
      match s' with
      | [] => [None]
      | d :: s'' => if (d =? 48) || (d =? 49) then toks s'' (d :: c :: acc) else [None]
      end
    else toks s' (c :: acc)
  end.
Definition tokens (ptr : list Z) : list (option (list Z)) := toks (tl ptr) [].

(** Number of escaped characters of a token, and its length without escapes. *)
Definition escapes (t : list Z) : nat := List.length (filter (Z.eqb 126) t).
Definition token_len (t : list Z) : nat := List.length t - escapes t.

(** ptr_token_to_idx, yyjson.c:1890-1911 (usize of 64 bits: 19 safe digits).  The characters
    looked at are the first [len] of the token as written.  A dash stands for USIZE_MAX, which
    is no index of an array; it matters in insertions only, which are not used here. *)
Fixpoint idx_digits (s : list Z) (num : Z) : option Z :=
  match s with
  | [] => if num =? 0 then None else Some num
  | c :: s' => if (48 <=? c) && (c <=? 57) then idx_digits s' (uwrap 64 (num * 10 + (c - 48))) else None
  end.
Definition token_idx (t : list Z) : option Z :=
  let len := token_len t in
  if (len =? 0)%nat || (19 <? len)%nat then None
  else match t with
       | [] => None
       | c :: _ =>
         if c =? 48 then (if (1 <? len)%nat then None else Some 0)
         else if c =? 45 then None
         else idx_digits (firstn len t) 0
       end.

(** ptr_token_eq, yyjson.c:1920-1937. *)
Fixpoint eq_esc (str t : list Z) : bool :=
  match str with
  | [] => true
  | x :: str' =>
    match t with
    | [] => false
    | c :: t' =>
      if c =? 126 then
        match t' with
        | [] => false
        | d :: t'' => (x =? (if d =? 48 then 126 else 47)) && eq_esc str' t''
        end
      else (x =? c) && eq_esc str' t'
    end
  end.
Definition token_eq (key t : list Z) : bool :=
  if negb (List.length key =? token_len t)%nat then false
  else if (escapes t =? 0)%nat then same key t
  else eq_esc key t.

(** ptr_new_key, yyjson.c:2047-2066. *)
Fixpoint unesc (t : list Z) : list Z :=
  match t with
  | [] => []
  | c :: t' =>
    if c =? 126 then
      match t' with
      | [] => []
      | d :: t'' => (if d =? 48 then 126 else 47) :: unesc t''
      end
    else c :: unesc t'
  end.
Definition new_key (t : list Z) : list Z := if (escapes t =? 0)%nat then t else unesc t.

(** ptr_arr_get and ptr_mut_arr_get, yyjson.c:1947-1960, 1991-2010. *)
Definition arr_at (l : list jv) (t : list Z) : option nat :=
  match l with
  | [] => None
  | _ => match token_idx t with
         | None => None
         | Some i => if Z.of_nat (List.length l) <=? i then None else Some (Z.to_nat i)
         end
  end.
(** ptr_obj_get and ptr_mut_obj_get, yyjson.c:1970-1979, 2021-2036: the first match. *)
Fixpoint obj_at (l : list (list Z * jv)) (t : list Z) : option jv :=
  match l with
  | [] => None
  | (k, v) :: l' => if token_eq k t then Some v else obj_at l' t
  end.

(** unsafe_yyjson_ptr_getx and unsafe_yyjson_mut_ptr_getx, yyjson.c:2084-2142. *)
Fixpoint getx (v : jv) (ts : list (option (list Z))) : option jv :=
  match ts with
  | [] => Some v
  | None :: _ => None
  | Some t :: ts' =>
    match v with
    | JObj l => match obj_at l t with Some c => getx c ts' | None => None end
    | JArr l => match arr_at l t with
                | Some i => match nth_error l i with Some c => getx c ts' | None => None end
                | None => None
                end
    | _ => None
    end
  end.
(** yyjson_doc_ptr_getx and yyjson_mut_doc_ptr_getx, yyjson.h:7118-7138, 7181-7205. *)
Definition doc_get (root : option jv) (ptr : list Z) : option jv :=
  match root with
  | None => None
  | Some v =>
    match ptr with
    | [] => Some v
    | c :: _ => if c =? 47 then getx v (tokens ptr) else None
    end
  end.

(** The first member with the key of a token gets another value (change in place). *)
Fixpoint obj_change (l : list (list Z * jv)) (t : list Z) (n : jv) : list (list Z * jv) :=
  match l with
  | [] => []
  | (k, v) :: l' => if token_eq k t then (k, n) :: l' else (k, v) :: obj_change l' t n
  end.
(** yyjson_mut_obj_put with a key of the object, yyjson.h:6726-6750: the first member with the
    key gets the value, the others are removed. *)
Fixpoint obj_put (l : list (list Z * jv)) (key : list Z) (n : jv) (replaced : bool) : list (list Z * jv) :=
  match l with
  | [] => []
  | (k, v) :: l' =>
    if same k key then (if replaced then obj_put l' key n true else (k, n) :: obj_put l' key n true)
    else (k, v) :: obj_put l' key n replaced
  end.
(** The key of the member found for a token. *)
Fixpoint obj_key (l : list (list Z * jv)) (t : list Z) : list Z :=
  match l with
  | [] => []
  | (k, _) :: l' => if token_eq k t then k else obj_key l' t
  end.
(** The objects created for the rest of a pointer, yyjson.c:2180-2223. *)
Fixpoint create (ts : list (option (list Z))) (n : jv) : option jv :=
  match ts with
  | [] => Some n
  | None :: _ => None
  | Some t :: ts' => match create ts' n with Some v => Some (JObj [(new_key t, v)]) | None => None end
  end.
(** unsafe_yyjson_mut_ptr_putx with create_parent and without insert_new, yyjson.c:2144-2281.
    [None]: false returned, nothing changed. *)
Fixpoint putx (v : jv) (ts : list (option (list Z))) (n : jv) : option jv :=
  match ts with
  | [] => Some n
  | None :: _ => None
  | Some t :: ts' =>
    match v with
    | JObj l =>
      match obj_at l t with
      | Some c =>
        match ts' with
        | [] => Some (JObj (obj_put l (obj_key l t) n false))
        | _ => match putx c ts' n with Some c' => Some (JObj (obj_change l t c')) | None => None end
        end
      | None => match create ts' n with Some c' => Some (JObj (l ++ [(new_key t, c')])) | None => None end
      end
    | JArr l =>
      match arr_at l t with
      | Some i =>
        match nth_error l i with
        | Some c => match putx c ts' n with Some c' => Some (JArr (set_nth i c' l)) | None => None end
        | None => None
        end
      | None => None
      end
    | _ => None
    end
  end.
(** yyjson_mut_doc_ptr_setx with a value and create_parent, yyjson.h:7356-7402. *)
Definition doc_set (root : option jv) (ptr : list Z) (n : jv) : option jv :=
  match ptr with
  | [] => Some n
  | c :: _ => if c =? 47 then putx (match root with Some v => v | None => JObj [] end) (tokens ptr) n else None
  end.
(** unsafe_yyjson_mut_ptr_replacex, yyjson.c:2283-2302: like a set, of a value that exists. *)
Fixpoint replacex (v : jv) (ts : list (option (list Z))) (n : jv) : option jv :=
  match ts with
  | [] => Some n
  | None :: _ => None
  | Some t :: ts' =>
    match v with
    | JObj l =>
      match obj_at l t with
      | Some c =>
        match ts' with
        | [] => Some (JObj (obj_put l (obj_key l t) n false))
        | _ => match replacex c ts' n with Some c' => Some (JObj (obj_change l t c')) | None => None end
        end
      | None => None
      end
    | JArr l =>
      match arr_at l t with
      | Some i =>
        match nth_error l i with
        | Some c => match replacex c ts' n with Some c' => Some (JArr (set_nth i c' l)) | None => None end
        | None => None
        end
      | None => None
      end
    | _ => None
    end
  end.
(** The array at a pointer gets one more element (yyjson_mut_arr_append, yyjson.h:6116-6134, on
    the value found).  [None]: there is none or it is no array. *)
Fixpoint appendx (v : jv) (ts : list (option (list Z))) (n : jv) : option jv :=
  match ts with
  | [] => match v with JArr l => Some (JArr (l ++ [n])) | _ => None end
  | None :: _ => None
  | Some t :: ts' =>
    match v with
    | JObj l =>
      match obj_at l t with
      | Some c => match appendx c ts' n with Some c' => Some (JObj (obj_change l t c')) | None => None end
      | None => None
      end
    | JArr l =>
      match arr_at l t with
      | Some i =>
        match nth_error l i with
        | Some c => match appendx c ts' n with Some c' => Some (JArr (set_nth i c' l)) | None => None end
        | None => None
        end
      | None => None
      end
    | _ => None
    end
  end.
(** yyjson_mut_doc_ptr_replacex, yyjson.h:7461-7492. *)
Definition doc_replace (root : option jv) (ptr : list Z) (n : jv) : option jv :=
  match root with
  | None => None
  | Some v =>
    match ptr with
    | [] => Some n
    | c :: _ => if c =? 47 then replacex v (tokens ptr) n else None
    end
  end.

(** ** Merge patch *)

(** yyjson_mut_obj_getn, yyjson.h: the first member with a key. *)
Fixpoint member (l : list (list Z * jv)) (key : list Z) : option jv :=
  match l with
  | [] => None
  | (k, v) :: l' => if same k key then Some v else member l' key
  end.
Definition has (l : list (list Z * jv)) (key : list Z) : bool :=
  match member l key with Some _ => true | None => false end.
Definition is_null (v : jv) : bool := match v with JNull => true | _ => false end.

(** yyjson_mut_merge_patch, yyjson.c:2712-2762. *)
Fixpoint merge_patch (patch : jv) (orig : option jv) {struct patch} : jv :=
  match patch with
  | JObj ps =>
    let os := match orig with Some (JObj os) => os | _ => [] end in
    JObj (filter (fun kv => negb (has ps (fst kv))) os ++
          (fix members (l : list (list Z * jv)) : list (list Z * jv) :=
             match l with
             | [] => []
             | (k, p) :: l' => if is_null p then members l' else (k, merge_patch p (member os k)) :: members l'
             end) ps)
  | _ => patch
  end.

(** ** Records and parse states *)

(** msr->extra and msr->extralength of a record. *)
Record heads := mk_heads { e_text : option (list Z); e_length : Z }.
(** LM_PARSED_JSON, extraheaders.h: the immutable document and the mutable one, which may have
    no root. *)
Record pstate := mk_pstate { p_doc : option jv; p_mut : option (option jv) }.

(** parse_json, extraheaders.c:55-103, without a state.  [None]: NULL returned. *)
Definition parse_json (rd : list Z -> option jv) (h : heads) : option pstate :=
  match e_text h with
  | None => Some (mk_pstate None None)
  | Some t =>
    if e_length h =? 0 then Some (mk_pstate None None)
    else match rd (firstn (Z.to_nat (e_length h)) t) with
         | Some j => Some (mk_pstate (Some j) None)
         | None => None
         end
  end.

Definition MS_GENERROR : Z := -1.

(** What a query stores at [value]: a double (as it is in the document, or converted from an
    integer), an int64_t, the memory of a string, an int. *)
Inductive got := GNothing | GReal (bits : Z) | GNum (d : dbl) | GInt (v : Z) | GText (mem : list Z) | GBool (v : Z).

(** strncpy (value, string, maxlength - 1); value[maxlength - 1] = 0, extraheaders.c:233-235:
    the difference is computed as uint32_t. *)
Definition copy_text (mem s : list Z) (maxlength : Z) : res (list Z) :=
  let n := Z.to_nat (uwrap 32 (maxlength - 1)) in
  let! t := text_of (s ++ [0]) in
  if (S n <=? List.length mem)%nat
  then Ok (firstn n (t ++ repeat 0 n) ++ [0] ++ skipn (S n) mem)
  else UB OOBWrite.

(** The value stored and the value returned for a value found, extraheaders.c:219-252; types n
    (110), i (105), s (115), b (98).  [value] is the memory at the pointer, if there is one. *)
Definition fetch (v : jv) (value : option (list Z)) (type maxlength : Z) : res (got * Z) :=
  let give (g : got) := Ok (match value with Some _ => g | None => GNothing end, 0) in
  let wrong := Ok (GNothing, match value with Some _ => 2 | None => 0 end) in
  if type =? 110 then
    match v with JReal b => give (GReal b) | JInt i => give (GNum (dofz i)) | _ => wrong end
  else if type =? 105 then
    match v with JInt i => give (GInt (swrap 32 i)) | _ => wrong end
  else if type =? 115 then
    match v with
    | JStr s => match value with
                | None => Ok (GNothing, 0)
                | Some mem => let! m := copy_text mem s maxlength in Ok (GText m, 0)
                end
    | _ => wrong
    end
  else if type =? 98 then
    match v with JBool b => give (GBool (if b then 1 else 0)) | _ => wrong end
  else wrong.

(** mseh_get_ptr_r, extraheaders.c:150-261.  [st]: what [*parsestate] is, [None] if it is NULL
    or no state is given; the state is returned as it is left. *)
Definition get_ptr (rd : list Z -> option jv) (h : heads) (ptr : list Z) (value : option (list Z)) (type maxlength : Z)
    (st : option pstate) : res (Z * got * option pstate) :=
  if e_length h =? 0 then Ok (1, GNothing, st)
  else match e_text h with
  | None => Ok (MS_GENERROR, GNothing, st)
  | Some _ =>
    if negb (hd 0 ptr =? 47) then Ok (MS_GENERROR, GNothing, st)
    else
      match (match st with Some s => Some s | None => parse_json rd h end) with
      | None => Ok (MS_GENERROR, GNothing, None)
      | Some s =>
        match p_mut s, p_doc s with
        | Some None, None => Ok (MS_GENERROR, GNothing, Some s)
        | m, d =>
          let d := match d, m with None, Some (Some j) => Some j | _, _ => d end in
          let s := mk_pstate d m in
          match doc_get d ptr with
          | None => Ok (1, GNothing, Some s)
          | Some v => let! (g, rc) := fetch v value type maxlength in Ok (rc, g, Some s)
          end
        end
      end
  end.

(** ** Setting *)

(** The value given, with its type: n, i, s, b, M, V, A or another. *)
Inductive given := SetNum (bits : Z) | SetInt (v : Z) | SetText (s : list Z) | SetBool (v : Z)
                 | SetPatch (text : list Z) | SetValue (v : jv) | SetAppend (v : jv) | SetOther.

(** The switch of mseh_set_ptr_r, extraheaders.c:381-458, on the mutable document: the document
    after it and whether a change was made. *)
Definition change (rd : list Z -> option jv) (root : option jv) (ptr : list Z) (g : given) : option jv * bool :=
  let set (v : jv) := match doc_set root ptr v with Some r => (Some r, true) | None => (root, false) end in
  match g with
  | SetNum b => set (JReal b)
  | SetInt v => set (JInt v)
  | SetText s => set (JStr s)
  | SetBool v => set (JBool (negb (v =? 0)))
  | SetPatch t =>
    match rd t with
    | None => (root, false)
    | Some p =>
      match doc_get root ptr with
      | None => (root, false)
      | Some target =>
        match doc_replace root ptr (merge_patch p (Some target)) with
        | Some r => (Some r, true)
        | None => (root, false)
        end
      end
    end
  | SetValue v => set v
  | SetAppend v =>
    let r := match doc_get root ptr with None => doc_set root ptr (JArr []) | Some _ => root end in
    match r with
    | None => (root, false)
    | Some r' => match appendx r' (tokens ptr) v with Some r'' => (Some r'', true) | None => (r, false) end
    end
  | SetOther => (root, false)
  end.

(** mseh_serialize, extraheaders.c:997-1041, of a state: the value returned and the headers. *)
Definition serialize (wr : jv -> option (list Z)) (h : heads) (st : option pstate) : Z * heads :=
  match st with
  | Some {| p_mut := Some root |} =>
    match (match root with Some j => wr j | None => None end) with
    | None => (MS_GENERROR, h)
    | Some t =>
      let n := Z.of_nat (List.length t) in
      if 65535 <? n then (MS_GENERROR, h) else (n, mk_heads (Some t) n)
    end
  | _ => (0, h)
  end.

(** mseh_set_ptr_r, extraheaders.c:312-476: with a state kept ([keep]) the headers are left. *)
Definition set_ptr (rd : list Z -> option jv) (wr : jv -> option (list Z)) (h : heads) (ptr : list Z) (g : given)
    (keep : bool) (st : option pstate) : Z * heads * option pstate :=
  if negb (hd 0 ptr =? 47) && negb (match g with SetPatch _ => true | _ => false end) then (MS_GENERROR, h, st)
  else
    match (match st with Some s => Some s | None => parse_json rd h end) with
    | None => (MS_GENERROR, h, None)
    | Some s =>
      let root := match p_mut s with Some r => r | None => p_doc s end in
      let (r, rv) := change rd root ptr g in
      let rc := if rv then 0 else MS_GENERROR in
      if keep then (rc, h, Some (mk_pstate (if rv then None else p_doc s) (Some r)))
      else (rc, snd (serialize wr h (Some (mk_pstate (p_doc s) (Some r)))), None)
    end.

(** mseh_replace, extraheaders.c:1091-1144. *)
Definition replace (rd : list Z -> option jv) (wr : jv -> option (list Z)) (h : heads) (text : option (list Z)) : Z * heads :=
  match text with
  | None => (0, mk_heads None 0)
  | Some t =>
    match rd t with
    | None => (MS_GENERROR, h)
    | Some j =>
      match wr j with
      | None => (MS_GENERROR, h)
      | Some s =>
        let n := Z.of_nat (List.length s) in
        if 65535 <? n then (MS_GENERROR, h) else (n, mk_heads (Some s) n)
      end
    end
  end.

(** ** Entries of detections, calibrations, exceptions and recenterings *)

(** One optional member.  Character arrays are the memory of the field. *)
Definition f_text (name : string) (mem : list Z) : res (list (list Z * jv)) :=
  let! t := text_of mem in Ok (match t with [] => [] | _ => [(zs name, JStr t)] end).
(** A double unless 0.0 (the bits of both zeros). *)
Definition f_real (name : string) (bits : Z) : res (list (list Z * jv)) :=
  Ok (if bits mod 2 ^ 63 =? 0 then [] else [(zs name, JReal bits)]).
Definition f_int (name : string) (v : Z) : res (list (list Z * jv)) :=
  Ok (if 0 <=? v then [(zs name, JInt v)] else []).
Definition f_bool (name : string) (v : Z) : res (list (list Z * jv)) :=
  Ok (if 0 <=? v then [(zs name, JBool (negb (v =? 0)))] else []).
Definition f_time (name : string) (t : Z) : res (list (list Z * jv)) :=
  if (t =? NSTERROR) || (t =? NSTUNSET) then Ok []
  else let! o := nstime2timestr t ISOMONTHDAY_Z NANO_MICRO_NONE in
       match o with Some s => Ok [(zs name, JStr s)] | None => Err MS_GENERROR end.

Fixpoint fields (l : list (res (list (list Z * jv)))) : res (list (list Z * jv)) :=
  match l with
  | [] => Ok []
  | f :: l' => let! a := f in let! b := fields l' in Ok (a ++ b)
  end.

(** MSEHEventDetection, libmseed.h:823-837, and the entry made of it, extraheaders.c:520-603. *)
Record detection := mk_detection {
  d_type : list Z; d_detector : list Z; d_amplitude : Z; d_period : Z; d_background : Z; d_wave : list Z; d_units : list Z;
  d_onset : Z; d_medsnr : list Z; d_lookback : Z; d_pick : Z }.
Definition detection_entry (d : detection) : res jv :=
  let! l := fields
    [ f_text "Type" (d_type d); f_real "SignalAmplitude" (d_amplitude d); f_real "SignalPeriod" (d_period d);
      f_real "BackgroundEstimate" (d_background d); f_text "Wave" (d_wave d); f_text "Units" (d_units d);
      f_time "OnsetTime" (d_onset d);
      Ok (if forallb (Z.eqb 0) (d_medsnr d) then [] else [(zs "MEDSNR", JArr (map JInt (d_medsnr d)))]);
      f_int "MEDLookback" (d_lookback d); f_int "MEDPickAlgorithm" (d_pick d); f_text "Detector" (d_detector d) ] in
  Ok (JObj l).

(** MSEHCalibration, libmseed.h:847-869, and its entry, extraheaders.c:665-797. *)
Record calibration := mk_calibration {
  k_type : list Z; k_begin : Z; k_end : Z; k_steps : Z; k_first : Z; k_alternate : Z; k_trigger : list Z; k_continued : Z;
  k_amplitude : Z; k_units : list Z; k_range : list Z; k_duration : Z; k_sine : Z; k_between : Z; k_channel : list Z;
  k_reference : Z; k_coupling : list Z; k_rolloff : list Z; k_noise : list Z }.
Definition calibration_entry (k : calibration) : res jv :=
  let! l := fields
    [ f_text "Type" (k_type k); f_time "BeginTime" (k_begin k); f_time "EndTime" (k_end k); f_int "Steps" (k_steps k);
      f_bool "StepFirstPulsePositive" (k_first k); f_bool "StepAlternateSign" (k_alternate k);
      f_text "Trigger" (k_trigger k); f_bool "Continued" (k_continued k); f_real "Amplitude" (k_amplitude k);
      f_text "InputUnits" (k_units k); f_text "AmplitudeRange" (k_range k); f_real "Duration" (k_duration k);
      f_real "SinePeriod" (k_sine k); f_real "StepBetween" (k_between k); f_text "InputChannel" (k_channel k);
      f_real "ReferenceAmplitude" (k_reference k); f_text "Coupling" (k_coupling k); f_text "Rolloff" (k_rolloff k);
      f_text "Noise" (k_noise k) ] in
  Ok (JObj l).

(** [x >= 0.0] of a double. *)
Definition not_negative (bits : Z) : bool := dlt dzero (dval bits) || match dval bits with DFin q => qzero q | _ => false end.
(** MSEHTimingException, libmseed.h:879-888, and its entry, extraheaders.c:846-892.  The float
    of the correction is given as the double it is converted to. *)
Record exception := mk_exception {
  x_time : Z; x_vco : Z; x_quality : Z; x_count : Z; x_type : list Z; x_status : list Z }.
Definition exception_entry (x : exception) : res jv :=
  let! l := fields
    [ f_time "Time" (x_time x); Ok (if not_negative (x_vco x) then [(zs "VCOCorrection", JReal (x_vco x))] else []);
      f_int "ReceptionQuality" (x_quality x); Ok (if 0 <? x_count x then [(zs "Count", JInt (x_count x))] else []);
      f_text "Type" (x_type x); f_text "ClockStatus" (x_status x) ] in
  Ok (JObj l).

(** MSEHRecenter, libmseed.h:898-904, and its entry, extraheaders.c:932-971. *)
Record recenter := mk_recenter { c_type : list Z; c_begin : Z; c_end : Z; c_trigger : list Z }.
Definition recenter_entry (c : recenter) : res jv :=
  let! l := fields
    [ f_text "Type" (c_type c); f_time "BeginTime" (c_begin c); f_time "EndTime" (c_end c); f_text "Trigger" (c_trigger c) ] in
  Ok (JObj l).

(** mseh_add_event_detection_r, mseh_add_calibration_r, mseh_add_timing_exception_r and
    mseh_add_recenter_r, extraheaders.c:493-614, 629-806, 821-901, 913-981: the entry is
    appended to the array at the pointer given or at the one of its kind. *)
Inductive entry := Detection (d : detection) | Calibration (k : calibration) | Exception (x : exception) | Recenter (c : recenter).
Definition entry_value (e : entry) : res jv :=
  match e with
  | Detection d => detection_entry d
  | Calibration k => calibration_entry k
  | Exception x => exception_entry x
  | Recenter c => recenter_entry c
  end.
Definition entry_place (e : entry) : list Z :=
  match e with
  | Detection _ => zs "/FDSN/Event/Detection"
  | Calibration _ => zs "/FDSN/Calibration/Sequence"
  | Exception _ => zs "/FDSN/Time/Exception"
  | Recenter _ => zs "/FDSN/Recenter/Sequence"
  end.
Definition add_entry (rd : list Z -> option jv) (wr : jv -> option (list Z)) (h : heads) (ptr : option (list Z)) (e : entry)
    (keep : bool) (st : option pstate) : res (Z * heads * option pstate) :=
  match entry_value e with
  | Ok v =>
    let '(rc, h', st') := set_ptr rd wr h (match ptr with Some p => p | None => entry_place e end) (SetAppend v) keep st in
    Ok (if rc =? 0 then 0 else MS_GENERROR, h', st')
  | Err c => Ok (c, h, st)
  | UB u => UB u
  | Fuel => Fuel
  end.
