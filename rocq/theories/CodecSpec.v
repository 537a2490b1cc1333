(** * What the fixed-width and legacy data words mean. *)

From Verif Require Export Base FloatSpec.
Open Scope Z_scope.

(** A [n]-byte value in data byte order ([be]: big-endian). *)
Definition data_bytes (be : bool) (n : nat) (v : Z) : list Z :=
  if be then be_bytes n v else le_bytes n v.

(** A series of words in data byte order. *)
Definition series_bytes (be : bool) (n : nat) (ws : list Z) : list Z :=
  concat (map (data_bytes be n) ws).

(** Two's complement reading of a [w]-bit word. *)
Definition twos (w u : Z) : Z := if u <? 2 ^ (w - 1) then u else u - 2 ^ w.

(** GEOSCOPE 16-bit: 12-bit mantissa biased by 2048, divided by two to the gain. *)
Definition geoscope163_value (u : Z) : Q :=
  Qmake (u mod 4096 - 2048) (Z.to_pos (2 ^ ((u / 4096) mod 8))).
Definition geoscope164_value (u : Z) : Q :=
  Qmake (u mod 4096 - 2048) (Z.to_pos (2 ^ (u / 4096))).

(** GEOSCOPE 24-bit: a two's complement integer. *)
Definition geoscope24_value (u : Z) : Q := inject_Z (twos 24 u).

(** CDSN: (biased mantissa - 8191) * multiplier. *)
Definition cdsn_mult (key : Z) : Z :=
  if key =? 0 then 1 else if key =? 1 then 4 else if key =? 2 then 16 else 128.
Definition cdsn_value (u : Z) : Z := (u mod 16384 - 8191) * cdsn_mult (u / 16384).

(** SRO: two's complement 12-bit mantissa times 2^(10 - gain); gains above 10 are
    not defined. *)
Definition sro_defined (u : Z) : Prop := u / 4096 <= 10.
Definition sro_value (u : Z) : Z := twos 12 (u mod 4096) * 2 ^ (10 - u / 4096).

(** DWWSSN: a two's complement 16-bit integer. *)
Definition dwwssn_value (u : Z) : Z := twos 16 u.
