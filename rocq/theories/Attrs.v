(** The attrs classes: what their constructors accept and what the attributes are afterwards.
    [@attrs] writes an [__init__] that binds the arguments, sets the attributes in the order of
    their declaration (defaults may read those set before), and then runs the validators in the
    same order. (swarms.py:17-121, formatters.py:17-167.) *)
From Coq Require Import String ZArith List Arith Bool.
From Verif Require Import Prelude F64.
Import ListNotations.
Local Open Scope string_scope.
Local Open Scope list_scope.

(** Arguments, as far as the checks look at them: an array has a shape; [np.float64] is a float;
    [OOther] is anything without a [shape]. (swarms.py:85-118, formatters.py:60-167.) *)
Inductive pyobj : Type :=
| OArray (shape : list nat) | OInt (z : Z) | OBool (b : bool) | OFloat (x : f64) | OStr (s : string)
| OList (l : list pyobj) | OTuple (l : list pyobj) | ODict (keys : list string) | OColormap | ONone | OOther.
(** The classes the validators name. (swarms.py:85-109, formatters.py:60-167.) *)
Inductive pycls : Type := Cndarray | Cint | Cbool | Cfloat | Cstr | Clist | Ctuple | Cdict | CColormap.
(** [isinstance]; [bool] is a subclass of [int]. (attr.validators.instance_of, swarms.py:14, formatters.py:12.) *)
Definition isinstance (v : pyobj) (k : pycls) : bool :=
  match v, k with
  | OArray _, Cndarray | OInt _, Cint | OBool _, Cint | OBool _, Cbool | OFloat _, Cfloat | OStr _, Cstr
  | OList _, Clist | OTuple _, Ctuple | ODict _, Cdict | OColormap, CColormap => true
  | _, _ => false
  end.
(** [attrib(validator=..., default=...)]: no validator, or [instance_of] a tuple of classes; no
    default, or a function of the attributes set so far (a constant for [default=]).
    (swarms.py:85-109, formatters.py:60-167.) *)
Record field : Type := mkField { f_name : string; f_valid : option (list pycls); f_default : option (dict pyobj -> res pyobj) }.

(** The arguments of the written [__init__] by name; [None] is Python's TypeError for too many,
    unknown or repeated arguments. (swarms.py:17, formatters.py:17, 81, 117 [@attrs].) *)
Definition bind_args (names : list string) (args : list pyobj) (kw : dict pyobj) : option (dict pyobj) :=
  if Nat.ltb (length names) (length args) then None
  else if forallb (fun k => existsb (String.eqb k) (skipn (length args) names)) (dkeys kw) then Some (combine names args ++ kw)
  else None.
(** swarms.py:17, formatters.py:17, 81, 117: [self.x = x], in the order of declaration *)
Fixpoint set_fields (fs : list field) (given self : dict pyobj) : res (dict pyobj) :=
  match fs with
  | [] => Ok self
  | f :: fs' =>
      do v <- (match dget given (f_name f), f_default f with
               | Some v, _ => Ok v
               | None, Some d => d self
               | None, None => Err TypeError
               end);
      set_fields fs' given (self ++ [(f_name f, v)])
  end.
(** swarms.py:85-109, formatters.py:60-167: the validators, in the order of declaration *)
Fixpoint validate (fs : list field) (self : dict pyobj) : res unit :=
  match fs with
  | [] => Ok tt
  | f :: fs' =>
      match f_valid f, dget self (f_name f) with
      | Some cs, Some v => if existsb (isinstance v) cs then validate fs' self else Err TypeError
      | _, _ => validate fs' self
      end
  end.
(** The written [__init__]. A missing required argument is found when the arguments are bound.
    (swarms.py:17, formatters.py:17, 81, 117 [@attrs].) *)
Definition attrs_init (fs : list field) (args : list pyobj) (kw : dict pyobj) : res (dict pyobj) :=
  match bind_args (map f_name fs) args kw with
  | None => Err TypeError
  | Some given =>
      if forallb (fun f => match f_default f with Some _ => true | None => dmem given (f_name f) end) fs then
        do self <- set_fields fs given [];
        do _ <- validate fs self;
        Ok self
      else Err TypeError
  end.
(** [default=v] (swarms.py:90-109, formatters.py:60-167) *)
Definition const (v : pyobj) : option (dict pyobj -> res pyobj) := Some (fun _ => Ok v).
(** swarms.py:111-113 [n_particles_default], 115-117 [dimensions_default]: [self.position.shape[i]] *)
Definition shape_default (i : nat) : option (dict pyobj -> res pyobj) :=
  Some (fun self =>
    match dget self "position" with
    | Some (OArray sh) => match nth_error sh i with Some n => Ok (OInt (Z.of_nat n)) | None => Err IndexError end
    | _ => Err AttributeError
    end).
(** swarms.py:119-121 [pbest_pos_default] *)
Definition pbest_default : option (dict pyobj -> res pyobj) :=
  Some (fun self => match dget self "position" with Some v => Ok v | None => Err AttributeError end).
(** swarms.py:84-121 [Swarm] *)
Definition swarm_fields : list field :=
  [ mkField "position" (Some [Cndarray]) None;
    mkField "velocity" (Some [Cndarray]) None;
    mkField "n_particles" (Some [Cint]) (shape_default 0);
    mkField "dimensions" (Some [Cint]) (shape_default 1);
    mkField "options" (Some [Cdict]) (const (ODict []));
    mkField "pbest_pos" (Some [Cndarray]) pbest_default;
    mkField "best_pos" (Some [Cndarray]) (const (OArray [0]));
    mkField "pbest_cost" (Some [Cndarray]) (const (OArray [0]));
    mkField "best_cost" (Some [Cint; Cfloat]) (const (OFloat finf));
    mkField "current_cost" (Some [Cndarray]) (const (OArray [0])) ].
(** A pair of numbers for the default limits. (formatters.py:72-75, 162-164.) *)
Definition unit_pair : pyobj := OTuple [OInt (-1); OInt 1].
(** formatters.py:60-78 [Designer] *)
Definition designer_fields : list field :=
  [ mkField "figsize" (Some [Ctuple]) (const (OTuple [OInt 10; OInt 8]));
    mkField "title_fontsize" (Some [Cstr; Cint; Cfloat]) (const (OStr "large"));
    mkField "text_fontsize" (Some [Cstr; Cint; Cfloat]) (const (OStr "medium"));
    mkField "legend" (Some [Cstr]) (const (OStr "Cost"));
    mkField "label" (Some [Cstr; Clist; Ctuple]) (const (OList [OStr "x-axis"; OStr "y-axis"; OStr "z-axis"]));
    mkField "limits" (Some [Clist; Ctuple]) (const (OList [unit_pair; unit_pair; unit_pair]));
    mkField "colormap" (Some [CColormap]) (const OColormap) ].
(** formatters.py:112-114 [Animator] *)
Definition animator_fields : list field :=
  [ mkField "interval" (Some [Cint]) (const (OInt 80));
    mkField "repeat_delay" None (const ONone);
    mkField "repeat" (Some [Cbool]) (const (OBool true)) ].
(** formatters.py:159-167 [Mesher]; [np.arange(-2.0, 2.0, 0.070)] has 58 entries *)
Definition mesher_fields : list field :=
  [ mkField "func" None None;
    mkField "delta" None (const (OFloat (fdec 1 1000)));
    mkField "limits" (Some [Clist; Ctuple]) (const (OList [unit_pair; unit_pair]));
    mkField "levels" None (const (OArray [58]));
    mkField "alpha" (Some [Cfloat]) (const (OFloat (fdec 3 10))) ].
