STATUS={}
