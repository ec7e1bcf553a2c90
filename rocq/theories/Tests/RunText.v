(** The text of pycep run on whole programs, compared with the model by computation (tests, not proofs). *)
From Coq Require Import List NArith ZArith Bool String Ascii.
From Verif Require Import Py.Str Py.Val Lark.Tree Python.Syntax Python.Eval Python.Program Pycep.Bicep.
Import ListNotations.
Local Open Scope string_scope.
Definition E0 : pyenv := {| uword_rx := fun _ => false; uword_re := fun _ => false; udigit_re := fun _ => false; uprintable := fun _ => true; udecimal := fun _ => None; uspace := fun _ => false |}.
Definition rt0 (p : Pycep.Main.path) : result str := Err EIndexError.
Definition show (r : out (val * heap)) : out pyval := match r with Got (v, h) => some (readback 100 h v) | Exn e => Exn e | Stuck => Stuck end.
(** [BicepParser(add_line_numbers=ln).parse(text=text)] *)
Definition parse_py (ln : bool) (text : str) : out (val * heap) :=
  let! (p, h) := pcall E0 rt0 20 "BicepParser" [] [("add_line_numbers", VBool ln)] empty_heap in
  pcall E0 rt0 20 "BicepParser.parse" [p] [("text", VStr text)] h.
Definition same (ln : bool) (t : string) : bool :=
  match show (parse_py ln (u t)), bicep_parse E0 rt0 ln (Some (u t)) None with
  | Got a, Ok b => str_eqb (py_repr E0 a) (py_repr E0 b)
  | Exn _, Err _ => true
  | _, _ => false
  end.
Definition texts := ["@minValue(-3)
@sys.description('a')
@foo(1)
param a int = 3
"; "var b = concat('a', b[1], c.d(1,2,3), x && y || z, x ? 1 : resourceGroup('a','b').id)
";"resource r 'a@b' = {
  a: 1
  resource q 'c' = {
    b: [ 
      1
      'x' 
    ]
    resource z 'd' = {
      depends_on: []
    }
  } 
}
"; "func f(a string, b int) string => foo((x) => y)
"; "module m 'br:mcr.microsoft.com/a/b:1.2' = [for (a,b) in c: if (a) {
  x: 1
}]
"; "import {a as b, c} from 'x'
import 'ns'
"; "type t = 'a' | 'b'
type q = string[][]
var x = ''''a
''''
"; "extension a with { b: 1 } as c
metadata m = 'x'
output o string = 'a'
"; "module m 'ts:123-4/rg/a.b:1.2' = { a: 1 }
module n 'ts/abc:a/b:1.2' = { a: 1 }
module o 'br/public:a/b:1.2' = { a: 1 }
module p 'br:foo.azurecr.io/a/b:1.2' = { a: 1 }
module q 'a.bicep' = if (x == 1) { a: 1 }
"; "module q 'br:x' = { a: 1 }
"; "targetScope = 'x'
"; "''''"].
Example text_runs : forallb (fun t => same true t && same false t) texts = true.
Proof. vm_compute. reflexivity. Qed.
