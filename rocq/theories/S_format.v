(** Specification of printf formats (C11 7.21.6.1), the part ulz_vsnprintf knows.  Formats are
    without their NUL. *)
From Verif Require Import Base Cstr S_num M_format.

(** ** which arguments a format takes *)
Inductive kind := KInt | KLong | KStr.
Inductive mode := Text | Dir | Dot | Dig | L | LL.
Definition digit (c : Z) : bool := (48 <=? c) && (c <=? 57).
(** one character c of a format: nothing more to do (an unknown directive), or an argument to take
    and the mode of the next character *)
Definition dir_char (c : Z) : option (option kind * mode) :=
  if c =? 37 then Some (None, Text) else if c =? 46 then Some (None, Dot) else if c =? 115 then Some (Some KStr, Text)
  else if (c =? 99) || (c =? 100) || (c =? 117) || (c =? 120) || (c =? 88) then Some (Some KInt, Text)
  else if c =? 112 then Some (Some KLong, Text) else if c =? 108 then Some (None, L) else if c =? 122 then Some (None, LL)
  else None.
Definition step (m : mode) (c : Z) : option (option kind * mode) :=
  match m with
  | Text => Some (None, if c =? 37 then Dir else Text)
  | Dir | Dig => dir_char c
  | Dot => if digit c then Some (None, Dig) else None
  | L => if c =? 108 then Some (None, LL) else if (c =? 100) || (c =? 117) then Some (Some KLong, Text) else None
  | LL => if (c =? 100) || (c =? 117) then Some (Some KLong, Text) else None
  end.
(** the arguments taken up to the first unknown directive *)
Fixpoint takes (m : mode) (l : list Z) : list kind :=
  match l with
  | [] => []
  | c :: l =>
      match step m c with
      | None => []
      | Some (Some k, m) => k :: takes m l
      | Some (None, m) => takes m l
      end
  end.
(** no precision has two digits *)
Fixpoint one_digit (m : mode) (l : list Z) : bool :=
  match l with
  | [] => true
  | c :: l =>
      match m with Dig => negb (digit c) | _ => true end &&
      match step m c with None => true | Some (_, m) => one_digit m l end
  end.
Definition is_kind (k : kind) (a : arg) : Prop :=
  match k, a with
  | KInt, VInt _ => True
  | KLong, VLong _ => True
  | KStr, VStr None => True
  | KStr, VStr (Some s) => exists t r, s = t ++ 0 :: r /\ nz t
  | _, _ => False
  end.
(** the arguments begin with arguments of these kinds *)
Inductive given : list kind -> list arg -> Prop :=
  | given_nil args : given [] args
  | given_cons k ks a args : is_kind k a -> given ks args -> given (k :: ks) (a :: args).

(** ** what C prints *)
Inductive lmod := Mnone | Ml | Mll | Mz.
Inductive conv := Cd | Cu | Cx | CX.
Inductive item :=
  | Lit (c : Z)
  | Percent
  | Str (s rest : list Z)  (* rest: what follows the NUL *)
  | Chr (c : Z)
  | Num (prec : option Z) (m : lmod) (cv : conv) (v : Z)
  | Addr (v : Z)  (* %p, the pointer converted to size_t *).
Definition lmod_fmt (m : lmod) : list Z := match m with Mnone => [] | Ml => [108] | Mll => [108; 108] | Mz => [122] end.
Definition conv_fmt (cv : conv) : Z := match cv with Cd => 100 | Cu => 117 | Cx => 120 | CX => 88 end.
Definition item_fmt (i : item) : list Z :=
  match i with
  | Lit c => [c]
  | Percent => [37; 37]
  | Str _ _ => [37; 115]
  | Chr _ => [37; 99]
  | Num None m cv _ => 37 :: lmod_fmt m ++ [conv_fmt cv]
  | Num (Some p) m cv _ => 37 :: 46 :: (48 + p) :: lmod_fmt m ++ [conv_fmt cv]
  | Addr _ => [37; 112]
  end.
Definition item_args (i : item) : list arg :=
  match i with
  | Lit _ | Percent => []
  | Str s rest => [VStr (Some (s ++ 0 :: rest))]
  | Chr c => [VInt c]
  | Num _ Mnone _ v => [VInt v]
  | Num _ _ _ v => [VLong v]
  | Addr v => [VLong v]
  end.
Definition conv_base (cv : conv) : Z := match cv with Cx | CX => 16 | _ => 10 end.
Definition conv_lower (cv : conv) : bool := match cv with Cx => true | _ => false end.
(** digits of v, at least prec of them, and a sign *)
Definition number_text (prec : Z) (cv : conv) (v : Z) (s : list Z) : Prop :=
  exists ds, is_repr (conv_base cv) (Z.abs v) ds /\
             s = sign_str (v <? 0) ++ map (digit_char (conv_lower cv)) (zrepeat 0 (Z.max 0 (prec - zlen ds)) ++ ds).
Definition prints (i : item) (s : list Z) : Prop :=
  match i with
  | Lit c => s = [c]
  | Percent => s = [37]
  | Str t _ => s = t
  | Chr c => s = [c]
  | Num None _ cv v => number_text 1 cv v s
  | Num (Some p) _ cv v => number_text p cv v s
  | Addr v => number_text 1 CX v s  (* C leaves the form open: here hexadecimal, capitals, no 0x *)
  end.
(** the arguments have their types, a precision is one digit and not less than the number of digits
    (the supported part) *)
Definition in_type (m : lmod) (cv : conv) (v : Z) : Prop :=
  match m, cv with
  | Mnone, Cd => - 2 ^ 31 <= v < 2 ^ 31
  | Mnone, Cu => 0 <= v < 2 ^ 32
  | Mnone, _ => 0 <= v < 2 ^ 31
  | _, Cd => - 2 ^ 63 <= v < 2 ^ 63
  | _, Cu => 0 <= v < 2 ^ 64
  | _, _ => False
  end.
Definition supported (i : item) : Prop :=
  match i with
  | Lit c => c <> 0 /\ c <> 37
  | Percent => True
  | Str s _ => nz s
  | Chr c => 0 < c < 256
  | Num p m cv v => in_type m cv v /\ match p with None => True | Some p => 1 <= p <= 9 /\ Z.abs v < conv_base cv ^ p end
  | Addr v => 0 <= v < 2 ^ 64
  end.
(** what follows a % and is no directive: nothing, an unknown letter, a point without a digit, %l, %ll or %z without d or u *)
Definition du (c : Z) : Prop := c = 100 \/ c = 117.
Inductive no_dir : list Z -> Prop :=
  | no_letter c q : ~ In c [37; 46; 115; 99; 100; 117; 120; 88; 112; 108; 122] -> no_dir (c :: q)
  | no_digit c q : digit c = false -> no_dir (46 :: c :: q)
  | no_l c q : c <> 108 -> ~ du c -> no_dir (108 :: c :: q)
  | no_ll c q : ~ du c -> no_dir (108 :: 108 :: c :: q)
  | no_z c q : ~ du c -> no_dir (122 :: c :: q).
