(** [format(v, spec)] for [str] and [int]: Python/formatter_unicode.c as far as epcpy uses it. *)
From Verif.Model Require Import Py Re Sre.

(** fill character, alignment, width, type *)
Record fspec := mkSpec { f_fill : N; f_align : option N; f_width : nat; f_type : option N }.
Definition a_left : N := 60.
Definition a_right : N := 62.
Definition a_sign : N := 61.     (* = : padding between the sign and the digits *)
Definition a_centre : N := 94.
Definition is_align (c : N) : bool := (c =? a_left) || (c =? a_right) || (c =? a_sign) || (c =? a_centre).

(** parse_internal_render_format_spec: [[fill]align][0][width][type]; a [0] before the width makes zero the fill character and,
    for numbers without an alignment, [=] the alignment.  Signs, [#], separators and precisions do not occur. *)
Definition spec_align (s : str) : option N * option N * str :=
  match s with
  | c :: r =>
      match r with
      | a :: r' => if is_align a then (Some c, Some a, r') else if is_align c then (None, Some c, r) else (None, None, s)
      | [] => if is_align c then (None, Some c, r) else (None, None, s)
      end
  | [] => (None, None, s)
  end.
Definition spec_zero (number : bool) (x : option N * option N * str) : option N * option N * str :=
  let '(fill, al, r) := x in
  match fill, r with
  | None, c :: r' =>
      if c =? c_0 then (Some c_0, match al with None => if number then Some a_sign else None | Some a => Some a end, r') else x
  | _, _ => x
  end.
Definition parse_spec (number : bool) (s : str) : option fspec :=
  let '(fill, al, r) := spec_zero number (spec_align s) in
  let (w, r') := take_digits r in
  let fill := match fill with Some c => c | None => c_space end in
  match r' with
  | [] => Some (mkSpec fill al (digits_nat w) None)
  | [t] => Some (mkSpec fill al (digits_nat w) (Some t))
  | _ => None
  end.

(** [format(s, spec)]; [None]: not covered *)
Definition fmt_str (s spec : str) : option (res str) :=
  match parse_spec false spec with
  | Some (mkSpec fill al w None) =>
      match al with
      | None => Some (Ok (padr fill w s))
      | Some a => if a =? a_left then Some (Ok (padr fill w s)) else if a =? a_right then Some (Ok (padl fill w s)) else None
      end
  | _ => None
  end.

Definition nhex_low (n : N) : str := map dchar_low (to_base 16 n).
(** the digits; decimal digits have a limit *)
Definition fmt_digits (ty : option N) (n : N) : option (res str) :=
  match ty with
  | None => Some (if int_max_str_digits <? N.of_nat (length (ndec n)) then Raise ValueError else Ok (ndec n))
  | Some t =>
      if t =? 98 then Some (Ok (nbin n))
      else if t =? 120 then Some (Ok (nhex_low n))
      else if t =? 88 then Some (Ok (nhex_up n))
      else None
  end.
Definition fmt_align (fill : N) (al : option N) (w : nat) (sign digits : str) : option str :=
  match al with
  | None => Some (padl fill w (sign ++ digits))
  | Some a =>
      if a =? a_right then Some (padl fill w (sign ++ digits))
      else if a =? a_left then Some (padr fill w (sign ++ digits))
      else if a =? a_sign then Some (sign ++ padl fill (w - length sign) digits)
      else None
  end.
(** [format(z, spec)] *)
Definition fmt_int (z : Z) (spec : str) : option (res str) :=
  match parse_spec true spec with
  | Some (mkSpec fill al w ty) =>
      match fmt_digits ty (Z.abs_N z) with
      | Some (Ok d) => option_map Ok (fmt_align fill al w (if (z <? 0)%Z then [c_dash] else []) d)
      | Some (Raise e) => Some (Raise e)
      | None => None
      end
  | None => None
  end.
