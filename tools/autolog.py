"""Add the attempts of automut.py (generated edits) to seeded/LOG.jsonl."""
import json,re,sys
EQ={
'LifecycleModel.thread_move':'equivalent: _make_thread leaves the current thread as it is until the last assignment',
'LoggingModel.DEBUG':'the number of a level of the standard library, only compared with other levels',
'LoggingModel.ERROR':'the number of a level of the standard library, only compared with other levels',
'LoggingModel.l_db_catch':'equivalent: both exceptions are the one raised inside',
'BusModel.hear_answers':'equivalent: hearing answers of others does not change the databank (C87)',
'BusModel.on_bus':'equivalent: hearing answers of others does not change the databank (C87)',
'HookedTcpModel.hooked_run':'equivalent for every observer: the thread has ended, its listening flag is not read any more',
'HmiModel.load':'equivalent: C98_serial_refuted proves that no port is ever opened',
'HmiModel.load_masters':'equivalent: C98_serial_refuted proves that no port is ever opened',
'TransportModel.flush_loop':'equivalent: the buffer is thrown away with the connection when the flush fails',
'SimulatorModel.client_has_slave':'equivalent: has_slave does not change the simulator (C72)',
'SimulatorModel.client_get_values':'equivalent: get_values does not change the simulator (C72)',
'OpenModel.rtu_close':'equivalent: the log entry is not part of the state compared',
'TimeoutModel.new_rserver':'equivalent: the value is overwritten by set_timeout at once',
'TimeoutModel.new_rmaster':'equivalent: overwritten by set_timeout at once',
'FloatModel.nunpack_one':'equivalent: branch not used',
'FloatModel.nparse_fmt':'equivalent: the empty format has no items, its byte order is not used',
'TimeoutModel.tdo_open':'equivalent: a failed open leaves the timeouts as they were',
'TimeoutModel.texecute':'not an edit of the program: a bound name in a type declaration',
'ConcModel.andthen':'not an edit of the program: precedence of a notation',
'TcpTimeModel.t_tcp_recv':'equivalent: reading at the end of the stream does not change it',
'TransportModel.read_more':'equivalent: reading at the end of the stream does not change it',
'NetModel.peer_send':'equivalent: both ways the request is written to the same live connection of this model',
'HookedCallModel.serial_exchange':'equivalent: the next call discards what is pending (C94)',
'HookedCallModel.serial_session':'equivalent: the pending bytes after the last call are not observed',
'OpenModel.tcp_do_close':'equivalent: the result of _do_close is not used by a TCP master',
'WorkerModel.new_worker':'equivalent: start() sets the flag before the thread looks at it (C80)',
'QueryModel.mbap_zero':'equivalent: every field is overwritten before it is used',
}
NEW={
'LoggingModel.is_plain':'plain_iff and C100 tightened: non-ASCII is spelled out as code 128 and above',
'LoggingModel.l_life':'C100_ended, C100_ended_for_good added',
'RtuLoggingModel.lr_life':'C118_ended added',
'TransportModel.rtu_recv_loop':'C47_bytes_in_order, C47_late_lost added, C47_late_bytes_dropped says what is left',
'HooksModel.h_server_handle':'C51_after_stored added',
'PyStruct.is_space':'C62_unknown_letter added',
'Defines.REPORT_SLAVE_ID':'the numbers of the function codes are spelled out in PropSlave (C16)',
'SessionModel.at_flush':'C76_new_connection added',
}
REST='fails now in a theorem added since the first run'
log='/verif/seeded/LOG.jsonl'
out={}
for l in open(log):
    d=json.loads(l); out[d['id']]=d
base,prefix,re_file=sys.argv[1],sys.argv[2],(sys.argv[3] if len(sys.argv)>3 else None)
rer={}
if re_file:
    for l in open(re_file):
        r=json.loads(l); rer[(r['definition'],r['old'],r['new'])]=r
n=0; todo=[]
for i,l in enumerate(open(base)):
    r=json.loads(l)
    if r['verdict'] not in('killed','survived'): continue
    k=(r['definition'],r['old'],r['new']); t=''
    res=r
    if r['verdict']=='survived':
        res=rer.get(k,r)
        if res['verdict']=='killed': t=REST
        else:
            t=NEW.get(r['definition']) or EQ.get(r['definition'])
            if not t: todo.append(k); t='see note'
    at=res.get('at','')
    e={'id':f'{prefix}{i:04d}','definition':r['definition'],'edit':[{'old':r['old'].strip(),'new':r['new'].strip()}],'claim':'generated edit (tools/automut.py)','breaks':[],
       'theorems_failed':[at.split('.')[-1]] if re.match(r'.*\.C\d+_',at) else [],'lemmas_failed':[at] if at and not re.match(r'.*\.C\d+_',at) else [],'not_failed_although_expected':[],'tightened':t}
    if res['verdict']=='survived': e['note']='no theorem failed'
    out[e['id']]=e; n+=1
if '-n' not in sys.argv: open(log,'w').write(''.join(json.dumps(out[k])+'\n' for k in sorted(out)))
print(n,len(out)); [print(x) for x in todo]
