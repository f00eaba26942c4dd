*.vo
*.vos
*.vok
*.glob
.*.aux
.lia.cache
.nia.cache
Makefile
Makefile.conf
.Makefile.d
*.vio
.coqdeps.d
