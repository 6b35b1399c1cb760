"""Write seeded/LOG.jsonl from the results of mutate.py (/tmp/mut/results.jsonl) and the table of what was tightened."""
import json,os
TIGHT={
 's18':'C107_quit now says that the server no longer serves; edit repeated as t18',
 'p02':'C104_counts added; edit repeated as p52: fails',
 'p03':'C104_counts added; edit repeated as p53: fails',
 'p33':'C103_layout now speaks of the table of C types c_types instead of the model function native_code, and C103_accepted added; edit repeated as p54: fails',
 'j16':'C97_all_refused_refuted added',
 'l01':'C99_lock_given_back added; edit repeated as l01b: fails',
 'b33':'C46_response and C48_response added: the bytes written are spelled out, not through the helper sent',
 'b55':'C36_calls and C36_advances added: transaction ids of calls of execute (C36 spoke of build_request only)',
 'a43':'C27_new_slave and C27_signedness added (C27_add only said new_slave was stored)',
 'c05':'C49_call_partial added (calls over RTU-over-TCP); C49 and C67 already failed',
 'c09':'C51_tcp_master_before_send added',
 'c15':'none needed: C46 states it and fails',
 'c17':'none needed: C46 states it and fails',
 'c21':'C47_fault added',
 'c26':'C51_rtu_after_read and C51_tcp_after_recv added',
 'c42':'C69_routed added (C51 already failed)',
 'c49':'none needed: C36_threads states it and fails (C70 is about answers)',
 'c53':'C79_at_most_one, C79_present, C79_absent added (request_calls was not used by a theorem)',
 'c66':'none needed: C53 is about live connections; a closed socket object that is kept is closed again and replaced by the next _do_open',
 'c82':'none needed: C56_in_sequence states it and fails; C57 is about one set/get pair issued as separate steps',
 'c86':'none needed: C74 states it and fails (C72 is about the other commands)',
 'c80':'C56_tells (new)',
 'c67':'none needed: C57, C72 and C74 fail; C56 is about which commands get an answer, not about their parsing',
 'd68':'C87_same_unit_refuted added (the noise was only ever shown to be empty)',
 'd71':'C90_after_recv_raises added',
 'd83':'C89_doubles_sent and C89_floats_sent added (the byte order was only used consistently)',
 'd87':'C89_doubles_sent added',
 'd93':'none needed: C71_broadcast_partial states it and fails (C77 is about what each slave does)',
 'e04':'none needed: the branch is never taken - C91_raises proves that every stop() made by a hook of the running thread raises, since the thread it joins is itself',
 'zaw03':'C76_stays_down added; it fails now',
 'y11':'none needed: the label C24 was wrong, the claim is C27, whose theorem C27_add failed',
 'c10':'none needed: C65_partial_request is the theorem that states the claim, and fails',
}
out={}
log='/verif/seeded/LOG.jsonl'
if os.path.exists(log):
    for l in open(log):
        d=json.loads(l); out[d['id']]=d
for l in open('/tmp/mut/results.jsonl'):
    r=json.loads(l)
    if 'error' in r: continue
    e={'id':r['id'],'definition':f"{r['file']}.{r['definition']}",
       'edit':[{'old':a,'new':b} for a,b in r['edit']],'claim':r['claim'],'breaks':r['expected'],
       'theorems_failed':r['failed_theorems'],'lemmas_failed':sum(r['admitted'].values(),[])[:40],
       'not_failed_although_expected':r['survived'],'tightened':TIGHT.get(r['id'],'')}
    if r['fatal']: e['note']='later files no longer compile: '+'; '.join(f'{k}: {v[:80]}' for k,v in r['fatal'].items() if v!='depends')
    out[r['id']]=e
open(log,'w').write(''.join(json.dumps(out[k])+'\n' for k in sorted(out)))
print(len(out), [k for k in out if out[k]['not_failed_although_expected'] and not out[k]['tightened']])
