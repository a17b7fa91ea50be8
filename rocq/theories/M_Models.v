(** Model of /repo/tivars/models/model.py: the calculator models, their order
    and features. *)
From Verif Require Import PyBase M_Flags.

(** The model constants, in the order of [TIModel.MODELS].  models/model.py:143-174. *)
Inductive model :=
| TI_82
| TI_83 | TI_82ST | TI_82ST_fr | TI_76_fr
| TI_83P | TI_83PSE | TI_83P_fr | TI_82P
| TI_84P | TI_84PSE | TI_83P_fr_USB | TI_84P_fr | TI_84PPSE
| TI_82A | TI_84PT
| TI_84PCSE
| TI_84PCE | TI_84PCET | TI_83PCE | TI_83PCEEP | TI_84PCEPY | TI_84PCETPE | TI_82AEP.

(** [TIModel.MODELS].  models/model.py:143-174. *)
Definition MODELS : list model :=
  [ TI_82; TI_83; TI_82ST; TI_82ST_fr; TI_76_fr; TI_83P; TI_83PSE; TI_83P_fr; TI_82P;
    TI_84P; TI_84PSE; TI_83P_fr_USB; TI_84P_fr; TI_84PPSE; TI_82A; TI_84PT; TI_84PCSE;
    TI_84PCE; TI_84PCET; TI_83PCE; TI_83PCEEP; TI_84PCEPY; TI_84PCETPE; TI_82AEP ].

(** Position in [MODELS]; models are identified by their distinct names
    (models/model.py:41-51), for which the position stands in. *)
Definition model_index (m : model) : Z :=
  match m with
  | TI_82 => 0 | TI_83 => 1 | TI_82ST => 2 | TI_82ST_fr => 3 | TI_76_fr => 4
  | TI_83P => 5 | TI_83PSE => 6 | TI_83P_fr => 7 | TI_82P => 8
  | TI_84P => 9 | TI_84PSE => 10 | TI_83P_fr_USB => 11 | TI_84P_fr => 12 | TI_84PPSE => 13
  | TI_82A => 14 | TI_84PT => 15 | TI_84PCSE => 16
  | TI_84PCE => 17 | TI_84PCET => 18 | TI_83PCE => 19 | TI_83PCEEP => 20
  | TI_84PCEPY => 21 | TI_84PCETPE => 22 | TI_82AEP => 23
  end.
(** [TIModel.__eq__].  models/model.py:41-42. *)
Definition model_eqb (a b : model) : bool := model_index a =? model_index b.

(** [TIModel.magic].  models/model.py:143-174. *)
Definition model_magic (m : model) : str :=
  match m with
  | TI_82 => s2l "**TI82**"
  | TI_83 | TI_82ST | TI_82ST_fr | TI_76_fr => s2l "**TI83**"
  | _ => s2l "**TI83F*"
  end.

(** [TIModel.product_id].  models/model.py:143-174. *)
Definition model_product_id (m : model) : Z :=
  match m with
  | TI_82 | TI_83 | TI_82ST | TI_82ST_fr | TI_76_fr => 0
  | TI_83P | TI_83PSE | TI_83P_fr | TI_82P => 4
  | TI_84P | TI_84PSE | TI_83P_fr_USB | TI_84P_fr | TI_84PPSE => 10
  | TI_82A => 11
  | TI_84PT => 27
  | TI_84PCSE => 15
  | TI_84PCE | TI_84PCET | TI_83PCE | TI_83PCEEP | TI_84PCEPY | TI_84PCETPE => 19
  | TI_82AEP => 0
  end.

(** [TIFeature]: each feature is one bit set to 1.  models/model.py:82-125. *)
Inductive feature := Complex | Flash | Apps | Clock | Color | EZ80 | ExactMath | Python.
Definition FEATURES : list feature :=
  [Complex; Flash; Apps; Clock; Color; EZ80; ExactMath; Python].
Definition feature_bit (f : feature) : Z :=
  match f with
  | Complex => 0 | Flash => 1 | Apps => 2 | Clock => 3
  | Color => 4 | EZ80 => 5 | ExactMath => 6 | Python => 7
  end.
Definition feature_flags (f : feature) : flags := [(feature_bit f, 1)].

(** The feature dictionaries, built with dictionary union.
    models/model.py:128-138. *)
Definition features82 : flags := [].
Definition features83 := dupdate features82 (feature_flags Complex).
Definition features82a := dupdate features83 (feature_flags Flash).
Definition features83p := dupdate features82a (feature_flags Apps).
Definition features84p := dupdate features83p (feature_flags Clock).
Definition features84pcse := dupdate features84p (feature_flags Color).
Definition features84pce := dupdate features84pcse (feature_flags EZ80).
Definition features83pce := dupdate features84pce (feature_flags ExactMath).
Definition features83pceep := dupdate features83pce (feature_flags Python).
Definition features84pcepy := dupdate features84pce (feature_flags Python).
Definition features82aep := dupdate features83pceep [(2, 0)].

(** The features passed to each model.  models/model.py:143-174. *)
Definition model_feature_dict (m : model) : flags :=
  match m with
  | TI_82 => features82
  | TI_83 | TI_82ST | TI_82ST_fr | TI_76_fr => features83
  | TI_83P | TI_83PSE | TI_83P_fr | TI_82P => features83p
  | TI_84P | TI_84PSE | TI_83P_fr_USB | TI_84P_fr | TI_84PPSE => features84p
  | TI_82A => features82a
  | TI_84PT => features84p
  | TI_84PCSE => features84pcse
  | TI_84PCE | TI_84PCET => features84pce
  | TI_83PCE => features83pce
  | TI_83PCEEP => features83pceep
  | TI_84PCEPY | TI_84PCETPE => features84pcepy
  | TI_82AEP => features82aep
  end.
(** [TIModel.features]: [TIFeature(features)], a width rounded
    up to eight bits.  models/model.py:33 with flags.py:83-97. *)
Definition model_features (m : model) : flags := flags_init (Some (model_feature_dict m)) 8.
(** [TIModel.has].  models/model.py:61-69. *)
Definition has (m : model) (f : feature) : result bool :=
  flags_contains (model_features m) (feature_flags f).

(** Ordering.  [MODEL_ORDER] comes from the missing token-sheet submodule, so
    the order of a model is a parameter.  models/model.py:44-45, 53-59;
    [__le__] and [__lt__] are those of [functools.total_ordering] (line 15):
    [a <= b] is [not a >= b or a == b]; [a < b] is [not a >= b]. *)
Section Order.
  Variable order : model -> Z.
  Definition model_ge (a b : model) : bool := order b <=? order a.
  Definition model_le (a b : model) : bool := negb (model_ge a b) || model_eqb a b.
  Definition model_lt (a b : model) : bool := negb (model_ge a b).
  (** [min(x, y, ...)] on models: the first element no later one is less than. *)
  Fixpoint min_from (best : model) (l : list model) : model :=
    match l with
    | [] => best
    | m :: r => min_from (if model_lt m best then m else best) r
    end.
  (** [min] with the list unpacked as arguments: no argument or a single (non-iterable) argument is a TypeError.
      var.py:1229. *)
  Definition min_star (l : list model) : result model :=
    match l with
    | [] | [_] => Err TypeError
    | m :: r => Ok (min_from m r)
    end.
End Order.
