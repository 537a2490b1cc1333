(** * What the extra header routines should do.

    Paths into a JSON document (RFC 6901), merge patches (RFC 7386) and the members of the
    entries; nothing here refers to tokens, walks or parse states. *)

From Coq Require Import String.
From Verif Require Export Base EhModel.
Open Scope Z_scope.
Open Scope list_scope.

(** ** Paths *)

(** A key as it is written in a pointer: ~0 for a tilde, ~1 for a slash. *)
Definition esc (k : list Z) : list Z :=
  flat_map (fun c => if c =? 126 then [126; 48] else if c =? 47 then [126; 49] else [c]) k.
(** The pointer to a path. *)
Definition written (ks : list (list Z)) : list Z := flat_map (fun k => 47 :: esc k) ks.

(** A key that is the number of an array element: decimal, without leading zeros. *)
Definition index_of (k : list Z) (i : Z) : Prop :=
  k <> [] /\ Forall (fun c => 48 <= c <= 57) k /\ (hd 0 k = 48 -> k = [48]) /\
  (List.length k <= 19)%nat /\ fold_left (fun a c => 10 * a + (c - 48)) k 0 = i.

(** The first member with a key. *)
Definition first_member (l : list (list Z * jv)) (k : list Z) (v : jv) : Prop :=
  exists a b, l = a ++ (k, v) :: b /\ ~ In k (map fst a).

(** The value at a path. *)
Inductive at_path : jv -> list (list Z) -> jv -> Prop :=
| at_here v : at_path v [] v
| at_member l k v ks w : first_member l k v -> at_path v ks w -> at_path (JObj l) (k :: ks) w
| at_element l k i v ks w : index_of k (Z.of_nat i) -> nth_error l i = Some v -> at_path v ks w -> at_path (JArr l) (k :: ks) w.

(** A value can be put at a path: members may be missing, elements of arrays may not, and
    nothing is inside a value that is neither. *)
Inductive settable : jv -> list (list Z) -> Prop :=
| s_here v : settable v []
| s_member l k v ks : first_member l k v -> settable v ks -> settable (JObj l) (k :: ks)
| s_new l k ks : ~ In k (map fst l) -> settable (JObj l) (k :: ks)
| s_element l k i v ks : index_of k (Z.of_nat i) -> nth_error l i = Some v -> settable v ks -> settable (JArr l) (k :: ks).

(** Paths of which neither leads through the other. *)
Definition apart (p q : list (list Z)) : Prop :=
  exists c a b p' q', p = c ++ a :: p' /\ q = c ++ b :: q' /\ a <> b.

Definition is_object (v : jv) : Prop := exists l, v = JObj l.
(** [j'] is [j] with [n] at the path: everything beside the path is as it was, arrays on the way
    are still arrays, everything else on the way is an object. *)
Definition changed (j : jv) (ks : list (list Z)) (n j' : jv) : Prop :=
  at_path j' ks n /\
  (forall qs w, apart ks qs -> at_path j' qs w <-> at_path j qs w) /\
  (forall ps qs v, ks = ps ++ qs -> qs <> [] -> at_path j' ps v ->
     (forall l, at_path j ps (JArr l) -> exists l', v = JArr l') /\
     ((forall l, ~ at_path j ps (JArr l)) -> is_object v)).

(** ** Merge patch *)

(** No object of a document has a key twice. *)
Inductive distinct : jv -> Prop :=
| d_plain v : ~ is_object v -> (forall l, v <> JArr l) -> distinct v
| d_arr l : Forall distinct l -> distinct (JArr l)
| d_obj l : NoDup (map fst l) -> (forall k v, In (k, v) l -> distinct v) -> distinct (JObj l).

(** RFC 7386, section 2: the result [r] of applying the patch to a target, if there is one. *)
Inductive merges : option jv -> jv -> jv -> Prop :=
| m_plain o p : ~ is_object p -> merges o p p
| m_obj o ps os r :
    (o = Some (JObj os) \/ os = [] /\ forall l, o <> Some (JObj l)) ->
    (forall k, ~ In k (map fst ps) -> forall v, first_member r k v <-> first_member os k v) ->
    (forall k, first_member ps k JNull -> ~ In k (map fst r)) ->
    (forall k p v, first_member ps k p -> p <> JNull -> first_member os k v ->
       exists c, first_member r k c /\ merges (Some v) p c) ->
    (forall k p, first_member ps k p -> p <> JNull -> ~ In k (map fst os) ->
       exists c, first_member r k c /\ merges None p c) ->
    merges o (JObj ps) (JObj r).

(** ** Queries *)

(** [s] up to its first NUL. *)
Definition ctext (s t : list Z) : Prop := ~ In 0 t /\ (s = t \/ exists r, s = t ++ 0 :: r).
(** The first [n - 1] characters of a text are stored in [n] bytes, filled with NUL. *)
Definition stored (s mem : list Z) (n : Z) (m : list Z) : Prop :=
  exists t, ctext s t /\
    let u := firstn (Z.to_nat (n - 1)) t in
    m = u ++ repeat 0 (Z.to_nat n - List.length u) ++ skipn (Z.to_nat n) mem.

(** Types n, i, s and b and the values they are for. *)
Definition suits (v : jv) (type : Z) : Prop :=
  (type = 110 /\ ((exists b, v = JReal b) \/ exists i, v = JInt i)) \/ (type = 105 /\ exists i, v = JInt i) \/
  (type = 115 /\ exists s, v = JStr s) \/ (type = 98 /\ exists b, v = JBool b).

(** What a query that finds [v] returns and stores.  Of an integer the low 32 bits are given. *)
Inductive answer : jv -> option (list Z) -> Z -> Z -> Z * got -> Prop :=
| an_exists v type n : answer v None type n (0, GNothing)
| an_real b mem n : answer (JReal b) (Some mem) 110 n (0, GReal b)
| an_num i mem n : answer (JInt i) (Some mem) 110 n (0, GNum (dofz i))
| an_int i x mem n : in_s 32 x -> (i - x) mod 2 ^ 32 = 0 -> answer (JInt i) (Some mem) 105 n (0, GInt x)
| an_text s mem n m : stored s mem n m -> answer (JStr s) (Some mem) 115 n (0, GText m)
| an_true mem n : answer (JBool true) (Some mem) 98 n (0, GBool 1)
| an_false mem n : answer (JBool false) (Some mem) 98 n (0, GBool 0)
| an_wrong v mem type n : ~ suits v type -> answer v (Some mem) type n (2, GNothing).

(** ** Use of a record *)

(** The record has the text as extra headers. *)
Definition headed (h : heads) (t : list Z) : Prop := e_text h = Some t /\ e_length h = Z.of_nat (List.length t) /\ t <> [].

Inductive op :=
| OGet (ptr : list Z) (value : option (list Z)) (type maxlength : Z)
| OSet (ptr : list Z) (g : given).

(** The value put by a request that is no patch and no addition. *)
Inductive plain : given -> jv -> Prop :=
| pl_num b : plain (SetNum b) (JReal b)
| pl_int v : plain (SetInt v) (JInt v)
| pl_text s : plain (SetText s) (JStr s)
| pl_true v : v <> 0 -> plain (SetBool v) (JBool true)
| pl_false : plain (SetBool 0) (JBool false)
| pl_value v : plain (SetValue v) v.

(** One request on a document that reads as [j]: its result and the document after it. *)
Inductive step (rd : list Z -> option jv) (j : jv) : op -> Z * got -> jv -> Prop :=
| st_get ks v value type n r :
    ks <> [] -> at_path j ks v -> answer v value type n r -> step rd j (OGet (written ks) value type n) r j
| st_absent ptr value type n :
    hd 0 ptr = 47 -> (forall ks v, ptr = written ks -> ~ at_path j ks v) -> step rd j (OGet ptr value type n) (1, GNothing) j
| st_noptr ptr value type n : hd 0 ptr <> 47 -> step rd j (OGet ptr value type n) (-1, GNothing) j
| st_set ks g v j' :
    ks <> [] -> plain g v -> settable j ks -> changed j ks v j' -> step rd j (OSet (written ks) g) (0, GNothing) j'
| st_patch ks t p target m j' :
    rd t = Some p -> at_path j ks target -> (distinct p -> merges (Some target) p m) -> changed j ks m j' ->
    step rd j (OSet (written ks) (SetPatch t)) (0, GNothing) j'
| st_append ks l v j' :
    ks <> [] -> at_path j ks (JArr l) -> changed j ks (JArr (l ++ [v])) j' ->
    step rd j (OSet (written ks) (SetAppend v)) (0, GNothing) j'
| st_first ks v j' :
    ks <> [] -> (forall w, ~ at_path j ks w) -> settable j ks -> changed j ks (JArr [v]) j' ->
    step rd j (OSet (written ks) (SetAppend v)) (0, GNothing) j'
| st_refused ptr g :
    (forall v ks, ptr = written ks -> ks <> [] -> plain g v -> ~ settable j ks) ->
    (forall t p ks target, g = SetPatch t -> rd t = Some p -> ptr = written ks -> ~ at_path j ks target) ->
    (forall v ks, g = SetAppend v -> ptr = written ks -> ks <> [] ->
       (forall l, ~ at_path j ks (JArr l)) /\ ((forall w, ~ at_path j ks w) -> ~ settable j ks)) ->
    step rd j (OSet ptr g) (-1, GNothing) j.
Inductive steps (rd : list Z -> option jv) : jv -> list op -> list (Z * got) -> jv -> Prop :=
| sts_nil j : steps rd j [] [] j
| sts_cons j o r j1 os rs j2 : step rd j o r j1 -> steps rd j1 os rs j2 -> steps rd j (o :: os) (r :: rs) j2.

(** Requests with a state that is kept, one after the other. *)
Fixpoint session (rd : list Z -> option jv) (h : heads) (os : list op) (st : option pstate)
    : res (list (Z * got) * option pstate) :=
  match os with
  | [] => Ok ([], st)
  | o :: os' =>
    let! (r, st1) :=
      match o with
      | OGet ptr value type n => let! (rc, g, st1) := get_ptr rd h ptr value type n st in Ok ((rc, g), st1)
      | OSet ptr g => let '(rc, _, st1) := set_ptr rd (fun _ => None) h ptr g true st in Ok ((rc, GNothing), st1)
      end in
    let! (rs, st2) := session rd h os' st1 in
    Ok (r :: rs, st2)
  end.
(** The memory for a text has the size stated. *)
Definition roomy (o : op) : Prop :=
  match o with
  | OGet _ (Some mem) 115 n => 1 <= n <= Z.of_nat (List.length mem) /\ n < 2 ^ 32
  | _ => True
  end.

(** ** Entries *)

(** The members an entry has. *)
Definition text_field (mem : list Z) (v : jv) : Prop := exists t r, v = JStr t /\ t <> [] /\ ~ In 0 t /\ mem = t ++ 0 :: r.
Definition real_field (bits : Z) (v : jv) : Prop := v = JReal bits /\ bits <> 0 /\ bits <> 2 ^ 63.
Definition int_field (i : Z) (v : jv) : Prop := v = JInt i /\ 0 <= i.
Definition bool_field (i : Z) (v : jv) : Prop := 0 < i /\ v = JBool true \/ i = 0 /\ v = JBool false.
Definition time_field (t : Z) (v : jv) : Prop :=
  t <> NSTERROR /\ t <> NSTUNSET /\ exists s, nstime2timestr t ISOMONTHDAY_Z NANO_MICRO_NONE = Ok (Some s) /\ v = JStr s.

Definition vco_field (bits : Z) (v : jv) : Prop :=
  v = JReal bits /\ (dval bits = DInf false \/ exists q, dval bits = DFin q /\ (0 <= q)%Q).
Definition snr_field (l : list Z) (v : jv) : Prop := (exists x, In x l /\ x <> 0) /\ v = JArr (map JInt l).

Definition says (e : entry) : list (string * (jv -> Prop)) :=
  match e with
  | Detection d =>
    [ ("Type", text_field (d_type d)); ("SignalAmplitude", real_field (d_amplitude d)); ("SignalPeriod", real_field (d_period d));
      ("BackgroundEstimate", real_field (d_background d)); ("Wave", text_field (d_wave d)); ("Units", text_field (d_units d));
      ("OnsetTime", time_field (d_onset d)); ("MEDSNR", snr_field (d_medsnr d)); ("MEDLookback", int_field (d_lookback d));
      ("MEDPickAlgorithm", int_field (d_pick d)); ("Detector", text_field (d_detector d)) ]
  | Calibration k =>
    [ ("Type", text_field (k_type k)); ("BeginTime", time_field (k_begin k)); ("EndTime", time_field (k_end k));
      ("Steps", int_field (k_steps k)); ("StepFirstPulsePositive", bool_field (k_first k));
      ("StepAlternateSign", bool_field (k_alternate k)); ("Trigger", text_field (k_trigger k));
      ("Continued", bool_field (k_continued k)); ("Amplitude", real_field (k_amplitude k)); ("InputUnits", text_field (k_units k));
      ("AmplitudeRange", text_field (k_range k)); ("Duration", real_field (k_duration k)); ("SinePeriod", real_field (k_sine k));
      ("StepBetween", real_field (k_between k)); ("InputChannel", text_field (k_channel k));
      ("ReferenceAmplitude", real_field (k_reference k)); ("Coupling", text_field (k_coupling k));
      ("Rolloff", text_field (k_rolloff k)); ("Noise", text_field (k_noise k)) ]
  | Exception x =>
    [ ("Time", time_field (x_time x)); ("VCOCorrection", vco_field (x_vco x)); ("ReceptionQuality", int_field (x_quality x));
      ("Count", fun v => v = JInt (x_count x) /\ 0 < x_count x); ("Type", text_field (x_type x));
      ("ClockStatus", text_field (x_status x)) ]
  | Recenter c =>
    [ ("Type", text_field (c_type c)); ("BeginTime", time_field (c_begin c)); ("EndTime", time_field (c_end c));
      ("Trigger", text_field (c_trigger c)) ]
  end%string.
(** The members of an entry are exactly those. *)
Definition entry_says (e : entry) (v : jv) : Prop :=
  exists l, v = JObj l /\ NoDup (map fst l) /\
    (forall k w, In (k, w) l <-> exists name P, In (name, P) (says e) /\ k = zs name /\ P w).

(** Texts, times and floating point numbers of an entry. *)
Definition texts_of (e : entry) : list (list Z) :=
  match e with
  | Detection d => [d_type d; d_wave d; d_units d; d_detector d]
  | Calibration k => [k_type k; k_trigger k; k_units k; k_range k; k_channel k; k_coupling k; k_rolloff k; k_noise k]
  | Exception x => [x_type x; x_status x]
  | Recenter c => [c_type c; c_trigger c]
  end.
Definition times_of (e : entry) : list Z :=
  match e with
  | Detection d => [d_onset d]
  | Calibration k => [k_begin k; k_end k]
  | Exception x => [x_time x]
  | Recenter c => [c_begin c; c_end c]
  end.
Definition reals_of (e : entry) : list Z :=
  match e with
  | Detection d => [d_amplitude d; d_period d; d_background d]
  | Calibration k => [k_amplitude k; k_duration k; k_sine k; k_between k; k_reference k]
  | _ => []
  end.
(** The texts are terminated, the times unset or such that they can be written. *)
Definition ready (e : entry) : Prop :=
  Forall (fun mem => In 0 mem) (texts_of e) /\ Forall (in_u 64) (reals_of e) /\
  Forall (fun t => t = NSTERROR \/ t = NSTUNSET \/ exists s, nstime2timestr t ISOMONTHDAY_Z NANO_MICRO_NONE = Ok (Some s)) (times_of e).

(** ** Records *)

(** The headers after writing a document: its text, or those before if it has no text or one
    of more than 65535 bytes. *)
Definition saved (wr : jv -> option (list Z)) (h : heads) (j : jv) (h' : heads) : Prop :=
  (exists t, wr j = Some t /\ Z.of_nat (List.length t) <= 65535 /\ h' = mk_heads (Some t) (Z.of_nat (List.length t))) \/
  ((wr j = None \/ exists t, wr j = Some t /\ 65535 < Z.of_nat (List.length t)) /\ h' = h).
(** The paths of the four kinds. *)
Definition place_of (e : entry) : list (list Z) :=
  match e with
  | Detection _ => [zs "FDSN"; zs "Event"; zs "Detection"]
  | Calibration _ => [zs "FDSN"; zs "Calibration"; zs "Sequence"]
  | Exception _ => [zs "FDSN"; zs "Time"; zs "Exception"]
  | Recenter _ => [zs "FDSN"; zs "Recenter"; zs "Sequence"]
  end.
