(** * Reading a file into a trace list and writing it: specification. *)

From Verif Require Export Base RecSpec ReadSpec TlSpec BufSpec FileModel.
Open Scope Z_scope.

(** ** What a path stands for *)

(** No byte range is asked for. *)
Definition no_range (flags : Z) (path : list Z) : Prop :=
  has_flag flags 8 = false \/ forall prefix t a b, path = prefix ++ 64 :: t -> ~ range_text t a b.

(** "file://" in any mixture of cases. *)
Definition file_scheme (scheme : list Z) : Prop :=
  Forall2 (fun c s => s = c \/ (97 <= c <= 122 /\ s = c - 32)) [102; 105; 108; 101; 58; 47; 47] scheme.
(** "://" is in the path. *)
Definition has_colon (path : list Z) : Prop := exists a b, path = a ++ [58; 47; 47] ++ b.

(** The bytes read for a path: those of the file of this name, of the file named behind
    "file://", or standard input for "-". *)
Inductive holds (fs : files) (stdin : list Z) (flags : Z) : list Z -> list Z -> Prop :=
| h_file path data : no_range flags path -> lenZ path < 512 -> path <> [45] -> ~ has_colon path ->
    fs path = Some data -> holds fs stdin flags path data
| h_scheme name scheme data : no_range flags (scheme ++ name) -> lenZ (scheme ++ name) < 512 -> file_scheme scheme ->
    fs name = Some data -> holds fs stdin flags (scheme ++ name) data
| h_stdin : holds fs stdin flags [45] stdin.

(** Paths that stand for nothing: there is no such file, or it is another URL. *)
Inductive nothing (fs : files) (flags : Z) : list Z -> Prop :=
| n_file path : no_range flags path -> lenZ path < 512 -> path <> [45] -> ~ has_colon path -> fs path = None -> nothing fs flags path
| n_scheme name scheme : no_range flags (scheme ++ name) -> lenZ (scheme ++ name) < 512 -> file_scheme scheme ->
    fs name = None -> nothing fs flags (scheme ++ name)
| n_url path : no_range flags path -> lenZ path < 512 -> has_colon path ->
    (forall scheme name, path = scheme ++ name -> ~ file_scheme scheme) -> nothing fs flags path.

(** ** Record list entries *)

(** The entry for the record [x] at position [pos]: to be found in the file of the name
    that was given. *)
Definition file_entry (named : option (list Z)) (px : Z * part) (p : rptr) : Prop :=
  p_msr p = part_head (snd px) /\
  p_src p = (match named with Some data => SFile (skipn (Z.to_nat (fst px)) data) | None => SNone end) /\
  p_off p = 40 + lenZ (until0 (h_sid (pt_hdr (snd px)))) + lenZ (h_extra (pt_hdr (snd px))).

(** The entry [p] is that of the record [x] of a segment, which is one of the [parts]. *)
Definition file_entry_of (named : option (list Z)) (parts : list part) (x : trec * Z) (p : rptr) : Prop :=
  exists px, In px (contents 0 parts) /\ file_entry named px p /\ fst x = trec_of (part_rec (snd px)).

(** The settings without unpacking. *)
Definition g_undecoded (g : rconf) : rconf :=
  mk_rconf (g_unpack2 g) (g_hb g) (g_mode g) (g_base g) (Z.ldiff (g_flags g) 1) (g_select g).
Definition t_undecoded (x : tconf) : tconf := mk_tconf (g_undecoded (t_read x)) (t_leaps x) (t_ttol x) (t_rtol x) (t_split x).
