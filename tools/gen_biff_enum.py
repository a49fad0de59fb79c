"""Regenerate rocq/theories/BiffEnum.v from the repository's biff_enum.py (read as text)."""
import ast, sys
src = open("/repo/rxls/biff_enum.py").read()
tree = ast.parse(src)
for node in tree.body:
    if isinstance(node, ast.Assign) and node.targets[0].id == "BIFF_ENUM":
        items = [(ast.literal_eval(k), ast.literal_eval(v), k.lineno) for k, v in zip(node.value.keys, node.value.values)]
out = ["(** Model of rxls/biff_enum.py: the name table (biff_enum.py:%d-%d), transcribed by" % (items[0][2], items[-1][2]),
       "    tools/gen_biff_enum.py, and the name lookups of rxls/biff.py. *)",
       "From Verif Require Import Py Biff.", "",
       "Definition biff_enum_ascii : list (string * Z) := ["]
out.append(";\n".join('  ("%s"%%string, %d)' % (k, v) for k, v, _ in items) + "].")
out.append("""
(** biff_enum.py:3: [BIFF_ENUM]. *)
Definition biff_enum : list (str * Z) := map (fun p => (s (fst p), snd p)) biff_enum_ascii.

(** biff_enum.py:%d: [dict(zip(values, keys))]; a later entry replaces an earlier one. *)
Definition biff_enum_reversed : list (Z * str) :=
  fold_left (fun d p => dset Z.eqb d (snd p) (fst p)) biff_enum [].

(** biff.py:61-63 [record.rec_name]. *)
Definition rec_name (r : record) : str :=
  match dget Z.eqb biff_enum_reversed (rec_id r) with Some n => n | None => s "Undefined" end.

(** biff.py:71-81 [record.from_data] with a [str] id: [BIFF_ENUM[id]] may raise KeyError. *)
Definition from_data_name (name : str) (parts : list bytes) : res record :=
  match dget str_eqb biff_enum name with
  | Some id => Ok (from_data id parts)
  | None => Err KeyError
  end.
""" % (len(src.splitlines())))
open("/verif/rocq/theories/BiffEnum.v", "w").write("\n".join(out))
