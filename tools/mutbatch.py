import sys,json; sys.path.insert(0,'/verif/tools'); import mutate
for m in json.load(open(sys.argv[1])):
    print('====',m['file'],m['claim'],flush=True)
    try:
        f=mutate.run(m['file'],m['old'],m['new'],m['claim'],True,m.get('count',1))
        if not f: print('!!!! SURVIVED',m,flush=True)
    except Exception as e: print('ERR',repr(e),m,flush=True)
