(** Model of how number fields choose their byte order where none is given. *)
From Verif Require Export StructModel.

(** numeric.py:81, 185, 418: [endian or sys.byteorder] *)
Definition field_endian (host : endian) (given : option endian) : endian :=
  match given with Some e => e | None => host end.

(** numeric.py:175-190, 240-247 ([Integer]), 70-90 ([Float]), 400-420 ([Timestamp]) *)
Definition integer_on (host : endian) (signed : bool) (given : option endian) : fkind := KInt signed (field_endian host given).
Definition float_on (host : endian) (fmt : fformat) (given : option endian) : fkind := KFloat fmt (field_endian host given).
Definition timestamp_on (host : endian) (r : resolution) (tz signed : bool) (given : option endian) : fkind :=
  KTime r tz signed (field_endian host given).
