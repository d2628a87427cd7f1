import json,re,sys
M={}
notes={
'C01':('proved','soundness on every enabled row (current and previous query) and completeness of assign_value_and_inverse'),
'C02':('proved','for every enum satisfying oh_wf (shown for SegmentType, PathType, MPTProofType)'),
'C03':('proved','for every nesting depth; poseidon_lookup shown to be independent of the selector'),
'C04':('proved','for every field element; interpolation for every point list with distinct abscissae'),
'C05':('proved','exact characterisation of the three lookups under the fixed columns that assign writes'),
'C06':('partial','proved under the anchor eadv e BR_index 1 = 0, which assign establishes (C07_assignment_meets_C06_anchor) but no constraint enforces; without it the claim is false: any value, length above one byte and RLC can be looked up, in tables of every size, and can be added to every accepted table with a spare row (refuted)'),
'C07':('proved','satisfaction, coverage, panic condition'),
'C08':('partial','full claim for n_rows = 1 mod 32; for other n_rows not divisible by 32 everything but the most significant byte; the claim holds exactly for n_rows = 1 mod 32 (sound_iff), otherwise the most significant byte (n_rows = 2..31 mod 32) or all bytes but the last (n_rows = 0 mod 32) can be forged (refuted)'),
'C09':('proved','for every n_rows'),
'C10':('proved','satisfaction and coverage for canonical_assign; content theorem links the cells'),
'C11':('partial','full claim for n_rows = 1 mod 32; bits below 248 for other n_rows not divisible by 32; exactly n_rows = 1 mod 32 is sound (sound_iff), forged bits otherwise (refuted)'),
'C12':('proved','satisfaction, coverage, exact success condition'),
'C13':('partial','under the C06 anchor'),
'C14':('proved','under a correct Poseidon table'),
}
import glob
thms={}
for f in sorted(glob.glob('/verif/rocq/theories/Props*.v')):
    for m in re.finditer(r'^(?:Theorem|Lemma)\s+(C(\d\d)_\w+)',open(f).read(),re.M):
        thms.setdefault('C'+m.group(2),[]).append(m.group(1))
try:
    exec(open('/verif/tools/notes_extra.py').read())
except FileNotFoundError: pass
ids=[json.loads(l)['id'] for l in open('/verif/properties.jsonl')]
claims=[]
for i in ids:
    if i in notes and i in thms:
        claims.append({"property":i,"status":notes[i][0],"theorems":thms[i],"note":notes[i][1]})
    else: print('missing',i)
json.dump({"claims":claims},open('/verif/MANIFEST.json','w'),indent=1)
