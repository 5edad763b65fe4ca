"""Write rocq/theories/Samples.v: one or more packets for each message type,
taken from the dumps in /repo/raw or written by hand after the OpenFlow
specification for the types that have no dump."""
import glob
be = lambda n, w: list(n.to_bytes(w, 'big'))
def msg(ver, t, body):
    return [ver, t] + be(8 + len(body), 2) + be(0x1234, 4) + body
out = []
for f in sorted(glob.glob('/repo/raw/v0x0*/*.dat')):
    if f.endswith('v0x01/ofpt_flow_stats_reply.dat'):
        continue        # its flow entry announces more bytes than there are
    out.append((f[len('/repo/'):], list(open(f, 'rb').read())))
bucket = be(32, 2) + be(5, 2) + be(3, 4) + be(0xffffffff, 4) + [0] * 4 + \
    be(0, 2) + be(16, 2) + be(7, 4) + be(0xffff, 2) + [0] * 6
hand = [
    ('experimenter', msg(4, 4, be(0x2320, 4) + be(9, 4))),
    ('get config request', msg(4, 7, [])),
    ('get config reply', msg(4, 8, be(1, 2) + be(128, 2))),
    ('group mod with two buckets', msg(4, 15, be(0, 2) + [1, 0] + be(77, 4) + bucket + bucket)),
    ('port mod', msg(4, 16, be(3, 4) + [0] * 4 + [1, 2, 3, 4, 5, 6] + [0] * 2 + be(1, 4) + be(1, 4) + be(0x20, 4) + [0] * 4)),
    ('table mod', msg(4, 17, [3, 0, 0, 0] + be(3, 4))),
    ('role request', msg(4, 24, be(2, 4) + [0] * 4 + be(2 ** 40 + 1, 8))),
    ('role reply', msg(4, 25, be(3, 4) + [0] * 4 + be(12, 8))),
    ('get async request', msg(4, 26, be(1, 4) * 6)),
    ('get async reply', msg(4, 27, be(0, 4) + be(1, 4) + be(2, 4) + be(0, 4) + be(1, 4) + be(2, 4))),
    ('set async', msg(4, 28, be(1, 4) * 6)),
    ('meter mod', msg(4, 29, be(0, 2) + be(1, 2) + be(5, 4))),
]
out += hand
with open('/verif/rocq/theories/Samples.v', 'w') as g:
    g.write('''(** Sample packets (written by tools/gen_samples.py): the dumps of /repo/raw and
    hand-written packets for the types without a dump.  They are used only to
    show that hypotheses can be met. *)
From Coq Require Import ZArith List.
From Verif Require Import Base.
Import ListNotations.
Open Scope Z_scope.

Definition samples : list bytes := [
''')
    for k, (name, b) in enumerate(out):
        g.write('  (* %s *)\n  [%s]%s\n' % (name, '; '.join(map(str, b)), ';' if k + 1 < len(out) else ''))
    g.write('].\n')
