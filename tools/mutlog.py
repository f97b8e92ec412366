#!/usr/bin/env python3
"""Writes seeded/LOG.jsonl from the results of the mutation campaigns.  usage: mutlog.py OUT1.jsonl OUT2.jsonl ...
Later results of an id win.  TIGHT: what was strengthened because of a mutant that no manifest theorem noticed, and the
attempt that shows the strengthened theorem failing."""
import json, re, sys
TITLES = {json.loads(l)['id']: json.loads(l)['title'] for l in open('properties.jsonl')}
TIGHT = {
 'm021': (['C07_only_configured', 'C08_configured_need_secret'], 'C07', 'no manifest theorem failed, only lemmas; see the repeat r021'),
 'm026': (['C51_sent_is_cut'], 'C51', 'survived; repeated as r026'),
 'm042': ([], 'C02', 'survived; equivalent in the model: the sources of the model deliver an error only with no data, so the stored error is None there'),
 'm074': (['C07_only_configured'], 'C07', 'survived; repeated as r074'),
 'm118': ([], 'C57', 'survived; a longer blacklist keeps every stated guarantee (the English claim bounds it from below); repeated as r118 with a shorter one'),
 'm130': (['C26_limit_configured', 'C26_below_limit_admitted'], 'C26', 'survived at first; repeated as r130'),
 'm149': (['C32_never_empty'], 'C32', 'survived; repeated as r149'),
 'm172': (['C35_set_running_runs', 'C35_running_not_idle'], 'C35', 'survived; repeated as r172'),
 'n026': (['C53_returns_once'], 'C53', 'survived; C53_returns_once added'),
 'n049': (['C56_close_closes_partial', 'C56_close_refuted'], 'C56', 'survived; C56_close_closes_partial added'),
}
try: TIGHT.update({k: tuple(v) for k, v in json.load(open('seeded/tight.json')).items()})
except FileNotFoundError: pass
RENAMED = {"C13_service_to_visitor": "C13_service_to_visitor_partial", "C13_service_to_visitor_prefix": "C13_service_to_visitor_prefix_partial"}
res = {}
for f in sys.argv[1:]:
    for l in open(f):
        x = json.loads(l); x["lost"] = [RENAMED.get(n, n) for n in x["lost"]]; res[x['id']] = x
with open('seeded/LOG.jsonl', 'w') as o:
    for i, x in res.items():
        t = TIGHT.get(i)
        cl = sorted({c for n in x['lost'] for c in re.findall(r'C\d+(?=_)', n)})
        if t: cl = sorted(set(cl) | {t[1]})
        if not cl: cl = x['claims']
        note = t[2] if t else {'KILLED': '', 'INVALID': 'the edited file does not typecheck: attempt void'}.get(x['status'], '')
        if x.get('bad') and not t: note = 'the edit changed the type of a definition, so the failures are not evidence: attempt void, repeated with another edit'
        o.write(json.dumps({'id': i, 'definition': f"{x['file']}.{x['definition']}", 'edit': f"{x['bug']}: replace `{x['old']}` by `{x['new']}`",
            'claim': '; '.join(f'{c} {TITLES.get(c, "")}' for c in cl), 'status': 'void' if x.get('bad') else x['status'].lower(),
            'theorems_failed': x['lost'], 'theorems_tightened': t[0] if t else [], 'note': note}, ensure_ascii=False) + '\n')
print(len(res))
