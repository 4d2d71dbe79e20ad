(** Specification for JSON text written straight from values: what is asked of the
    printer of single precision numbers, and files with their singles replaced. *)
From Coq Require Import ZArith List Bool String QArith.
From Verif Require Import Base Str Types Versions File Spec Json JsonSpec Numeral Nearest JsonGrammar.
Import ListNotations.
Open Scope Z_scope.

(** A number with a fraction or an exponent: its sign, its magnitude, its text. *)
Inductive real_text : bool -> Q -> str -> Prop :=
| Real (neg : bool) i f x e y : whole i -> fraction f x -> exponent e y -> x ++ y <> [] ->
    real_text neg (inject_Z (value (i ++ f)) * (10 # 1) ^ (e - Z.of_nat (List.length f)))
      ((if neg then [45] else []) ++ i ++ x ++ y).
(** The documented contract of [ryu] for f32: the text of every finite single denotes a number to
    which that single is the nearest. *)
Definition prints_singles (float32 : Z -> str) : Prop :=
  forall b, u_ok 4 b = true -> finite32 b = true ->
  exists q, real_text (2147483648 <=? b) q (float32 b) /\ nearest32 q (b mod 2147483648).
(** ... and has the fewest digits among these. *)
Definition shortest (float32 : Z -> str) (b : Z) : Prop :=
  exists q n e, real_text (2147483648 <=? b) q (float32 b) /\ 0 <= n /\ (q == inject_Z n * (10 # 1) ^ e)%Q
  /\ nearest32 q (b mod 2147483648)
  /\ forall n' e', 0 <= n' -> nearest32 (inject_Z n' * (10 # 1) ^ e') (b mod 2147483648) ->
     forall k, n' < 10 ^ k -> n < 10 ^ k.
(** What a single becomes: from its text the nearest double, from this the nearest single. *)
Definition reread (float32 : Z -> str) (b c : Z) : Prop :=
  exists neg q d, real_text neg q (float32 b) /\ nearest64 q d /\ d < 9218868437227405312
    /\ rounded32 neg (number 52 (-1074) d) c.

(** ** Values with every single replaced; what then becomes of the entries of a generic map
    (keys may have become equal) is a parameter. *)
Section Replace.
Context (r : Z -> Z) (ins : list (property * property) -> list (property * property)).
Definition r_num (k : num) (z : Z) : Z := match k with F32 => r z | _ => z end.
Fixpoint r_nums (ks : list num) (l : list Z) : list Z :=
  match ks, l with
  | k :: ks', z :: l' => r_num k z :: r_nums ks' l'
  | _, _ => []
  end.
Fixpoint r_text (t : ftext) : ftext := match t with FText f h => FText f (r_hist h) end
with r_hist (h : fhist) : fhist :=
  match h with
  | HNamed t l => HNamed (r_text t) (map (fun '(k, v) => (k, r_arg v)) l)
  | HOrdered t l => HOrdered (r_text t) (map r_arg l)
  | HArgument t l => HArgument (r_text t) (map (fun '(k, v) => (k, r_arg v)) l)
  | HNumber v o c => HNumber (r_arg v) o c
  | HPercent v o c => HPercent (r_arg v) o c
  | HCurrency d v o c => HCurrency d (r_arg v) o c
  | HTransform t x => HTransform (r_text t) x
  | _ => h
  end
with r_arg (a : farg) : farg :=
  match a with
  | AFloat z => AFloat (r z)
  | AText t => AText (r_text t)
  | _ => a
  end.
Fixpoint r_prop (p : property) : property :=
  match p with
  | PNum k z => PNum k (r_num k z)
  | PText t => PText (r_text t)
  | PArray a => PArray (r_array a)
  | PSet t f l => PSet t f (map r_prop l)
  | PMap m => PMap (r_map m)
  | PStruct g t v => PStruct g t (r_sval v)
  | PSValue v => PSValue (r_sval v)
  | _ => p
  end
with r_sval (v : svalue) : svalue :=
  match v with
  | SFixed x l => SFixed x (r_nums (layout x) l)
  | SCustom l => SCustom (map (fun '(k, ps) => (k, map r_prop ps)) l)
  | _ => v
  end
with r_array (a : arrayp) : arrayp :=
  match a with
  | AFloats l => AFloats (map r l)
  | AStructs f t g l => AStructs f t g (map r_sval l)
  | AProps t l => AProps t (map r_prop l)
  | _ => a
  end
with r_map (m : mapp) : mapp :=
  match m with
  | MProp k vt l => MProp k vt (map (fun '(s, p) => (s, r_prop p)) l)
  | MGen kt vt f l => MGen kt vt f (ins (map (fun '(k, v) => (r_prop k, r_prop v)) l))
  | _ => m
  end.
Definition r_file (g : gfile) : gfile :=
  GFile (g_version g) (g_header g) (map (fun '(k, p) => (k, r_prop p)) (g_props g)).
End Replace.

(** ** The singles of a file *)
Fixpoint n_singles (ks : list num) (l : list Z) : list Z :=
  match ks, l with
  | k :: ks', z :: l' => (match k with F32 => [z] | _ => [] end) ++ n_singles ks' l'
  | _, _ => []
  end.
Fixpoint t_singles (t : ftext) : list Z := match t with FText _ h => h_singles h end
with h_singles (h : fhist) : list Z :=
  match h with
  | HNamed t l | HArgument t l => t_singles t ++ flat_map (fun '(_, v) => a_singles v) l
  | HOrdered t l => t_singles t ++ flat_map a_singles l
  | HNumber v _ _ | HPercent v _ _ | HCurrency _ v _ _ => a_singles v
  | HTransform t _ => t_singles t
  | _ => []
  end
with a_singles (a : farg) : list Z :=
  match a with
  | AFloat z => [z]
  | AText t => t_singles t
  | _ => []
  end.
Fixpoint p_singles (p : property) : list Z :=
  match p with
  | PNum F32 z => [z]
  | PText t => t_singles t
  | PArray a => y_singles a
  | PSet _ _ l => flat_map p_singles l
  | PMap m => m_singles m
  | PStruct _ _ v | PSValue v => v_singles v
  | _ => []
  end
with v_singles (v : svalue) : list Z :=
  match v with
  | SFixed x l => n_singles (layout x) l
  | SCustom l => flat_map (fun '(_, ps) => flat_map p_singles ps) l
  | _ => []
  end
with y_singles (a : arrayp) : list Z :=
  match a with
  | AFloats l => l
  | AStructs _ _ _ l => flat_map v_singles l
  | AProps _ l => flat_map p_singles l
  | _ => []
  end
with m_singles (m : mapp) : list Z :=
  match m with
  | MProp _ _ l => flat_map (fun '(_, p) => p_singles p) l
  | MGen _ _ _ l => flat_map (fun '(k, v) => p_singles k ++ p_singles v) l
  | _ => []
  end.
Definition singles (g : gfile) : list Z := flat_map (fun '(_, p) => p_singles p) (g_props g).
