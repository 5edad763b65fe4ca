"""Run the model on the packet dumps in /repo/raw (a sanity check of the model,
not a proof): decode each dump, re-encode the result, compare with the dump, and ask the reference
encoder whether the decoded message is well-formed and carried by the dump."""
import glob, os, subprocess, sys, tempfile
files = sorted(glob.glob('/repo/raw/v0x0*/*.dat'))
out = ['From Coq Require Import ZArith List String.',
       'From Verif Require Import Base Ids PyVal Classes Interp Utils Ref.',
       'Import ListNotations. Open Scope Z_scope.',
       'Definition rt b := match unpack_packet b with Ok v => match pack v with Ok b2 =>'
       ' (1, if list_eq_dec Z.eq_dec b b2 then 1 else 0, match ref_msg 20 (if hd 0 b =? 1 then V01 else V04) v with'
       ' Some (_, _, b3, _) => if list_eq_dec Z.eq_dec b b3 then 1 else 0 | None => 2 end, None) | Err e => (1, 2, 0, Some e) end | Err e => (0, 0, 0, Some e) end.']
for f in files:
    b = open(f, 'rb').read()
    out.append('Eval vm_compute in rt [%s].' % '; '.join(map(str, b)))
d = tempfile.mkdtemp()
p = os.path.join(d, 'raw.v')
open(p, 'w').write('\n'.join(out))
r = subprocess.run(['coqc', '-Q', '/verif/rocq/theories', 'Verif', p], capture_output=True, text=True)
if r.returncode:
    sys.exit(r.stderr)
res = [l.strip() for l in r.stdout.split('\n') if l.strip().startswith('=')]
for f, l in zip(files, res):
    print(f[10:], l)
