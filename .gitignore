*.vo
*.vok
*.vos
*.glob
*.aux
.*.aux
*.vio
.lia.cache
.nia.cache
rocq/Makefile
rocq/Makefile.conf
rocq/.Makefile.d
.Makefile.d
*.d
