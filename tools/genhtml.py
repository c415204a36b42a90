t=open('/repo/thermal_renderer/resources/templates/thermal.html').read()
assert all(ord(c)<128 for c in t), [c for c in t if ord(c)>=128]
lines=t.split('\n')
print(len(t), len(lines))
def q(s): return '"'+s.replace('"','""')+'"'
out='''(** * HtmlTemplate: thermal_renderer/resources/templates/thermal.html, transcribed by a script
    (tools/genhtml.py). *)
From Verif Require Import Base ThermalFile.
Local Open Scope list_scope.

(** the lines of the file *)
Definition template_lines : list string :=
  [%s].
(** html_renderer/mod.rs:26: include_str! *)
Definition TEMPLATE : list Z :=
  match template_lines with
  | [] => []
  | l :: r => str l ++ flat_map (fun l => 10 :: str l) r
  end.
''' % ';\n   '.join(q(l)+'%string' for l in lines)
open('/verif/rocq/theories/HtmlTemplate.v','w').write(out)
