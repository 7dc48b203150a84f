(** Specification side of whole values: what a JSON text means as a value. Independent of the parser. *)
From Coq Require Import ZArith.
From Verif Require Import Base Buffer Jiter JiterValue RJiter RJiterSpec Scan ScanSpec.

(** ** Numbers: an integer is its mathematical value, a number with a fraction or an exponent is kept as written. *)
Fixpoint decimal (l : bytes) : Z :=
  match l with
  | [] => 0
  | x :: l' => (Z.of_N x - 48) * 10 ^ Z.of_nat (len l') + decimal l'
  end%Z.
Definition fractional (t : bytes) : Prop := Exists (fun x => x = 46 \/ x = 101 \/ x = 69)%N t.
Inductive integer_is : bytes -> Z -> Prop :=
| is_positive i : integer i -> integer_is i (decimal i)
| is_negative i : integer i -> integer_is (45%N :: i) (- decimal i)%Z.
Inductive number_is : bytes -> jvalue -> Prop :=
| is_int t z : integer_is t z -> number_is t (VInt z)
| is_float t : number_text t -> fractional t -> number_is t (VFloat t).

(** ** Strings: escapes resolved, valid UTF-8. *)
Definition string_is (t d : bytes) : Prop := json_text true t d /\ is_utf8 d.

(** ** Values, parametric in what strings and numbers mean *)
Section Means.
Context (str : bytes -> bytes -> Prop) (num : bytes -> jvalue -> Prop).
Inductive means : json -> jvalue -> Prop :=
| mn_null : means JNull VNull
| mn_true : means JTrue (VBool true)
| mn_false : means JFalse (VBool false)
| mn_number t x : num t x -> means (JNumber t) x
| mn_string t d : str t d -> means (JString t) (VStr d)
| mn_array l xs : means_all l xs -> means (JArray l) (VArray xs)
| mn_object m ys : means_members m ys -> means (JObject m) (VObject ys)
with means_all : list json -> list jvalue -> Prop :=
| ma_nil : means_all [] []
| ma_cons v l x xs : means v x -> means_all l xs -> means_all (v :: l) (x :: xs)
with means_members : list (bytes * json) -> list (bytes * jvalue) -> Prop :=
| mm_nil : means_members [] []
| mm_cons k d v x m ys : str k d -> means v x -> means_members m ys -> means_members ((k, v) :: m) ((d, x) :: ys).
End Means.
(** The value of a text; every object keeps all its members, in order. *)
Definition value_of : json -> jvalue -> Prop := means string_is number_is.

(** Arrays and objects that are not empty, inside each other. *)
Fixpoint depth (v : json) : nat :=
  match v with
  | JArray l => match l with [] => 0 | _ => S (list_max (map depth l)) end
  | JObject m => match m with [] => 0 | _ => S (list_max (map (fun kv => depth (snd kv)) m)) end
  | _ => 0
  end.

(** White space, then the text [t] of [v], then [r]. A number at the end of [t] need not be followed by a delimiter. *)
Definition text_of (v : json) (l r : bytes) : Prop :=
  exists w t, l = w ++ t ++ r /\ spaces w /\ value_at any_layout false v t [].

(** ** The methods of the parser that read numbers: what the number they return is, and the method *)
Definition written (t x : bytes) : Prop := number_text t /\ x = t.
Definition any_is (t : bytes) (x : number_any) : Prop :=
  match x with AnyInt z => integer_is t z | AnyFloat u => written t u /\ fractional t end.
Inductive number_method : forall {A}, (bytes -> A -> Prop) -> (rj -> outcome (rj * result A rerror)) -> Prop :=
| nm_int : number_method integer_is next_int
| nm_float : number_method written next_float
| nm_number : number_method any_is next_number
| nm_bytes : number_method written next_number_bytes.
(** The methods that read whole values. *)
Inductive value_method : (rj -> outcome (rj * result jvalue rerror)) -> Prop :=
| vm_next : value_method next_value
| vm_owned : value_method next_value_owned.
(** The methods for a value whose first byte is known, and the methods that look themselves. *)
Inductive known_method : forall {A}, (byte -> rj -> outcome (rj * result A rerror)) -> (rj -> outcome (rj * result A rerror)) -> Prop :=
| km_int : known_method known_int next_int
| km_float : known_method known_float next_float
| km_number : known_method known_number next_number
| km_skip : known_method known_skip next_skip
| km_value : known_method known_value next_value
| km_value_owned : known_method known_value_owned next_value_owned.
